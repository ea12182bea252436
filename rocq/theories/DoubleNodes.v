(** Objects with given values, read as the nodes of a document: the lemmas of [WriteNodes.v]
    that the file of [DoubleProofs.v] needs, with the values in view. *)
From Coq Require Import Lia ZifyBool ZifyNat ZifyN.
From Verif Require Import Base Codec SpecCodec Package PropSet PropIds SpecPropSet Store Shapes Props Nodes Doc SpecRefs SpecValues SpecNodes SpecDoc
  SpecValid SpecFile DescProofs DescProofs2 DescProofs3 EncodeProofs WriteNodes.

Definition as_written (cell : cellid) (a : aobject) (P : object -> Prop) : Prop :=
  ao_good a /\ forall o, object_is cell (describe a) o -> P o.
Ltac enough_as := match goal with |- as_written _ ?a _ => cut (ao_good a); [let G := fresh "G" in intro G; split; [exact G|]|] end; cycle 1.

Lemma as_section_meta cell id d s1 s2 s3 s4 : id_fits id ->
  writes (req_rel dword (sm_schema_read d)) s1 ->
  writes (req_rel dword (sm_schema_write d)) s2 ->
  writes (opt_rel text (sm_display_name d)) s3 ->
  writes (opt_rel argb (sm_color d)) s4 ->
  as_written cell (AObject id 0x00020031 [(0x14001D82, fv s1); (0x1400348B, fv s2); (0x1C00349B, fv s3); (0x14001CBE, fv s4)] None None) (fun o => section_meta o d).
Proof.
  intros Hid H1 H2 H3 H4.
  enough_as.
  { node_good Hid. eexists; exists (0%nat). refine (conj _ (conj _ _)).
    -
    eapply fg_cons; [exact (fg_fv _ _ H1)|].
    eapply fg_cons; [exact (fg_fv _ _ H2)|].
    eapply fg_cons; [exact (fg_fv _ _ H3)|].
    eapply fg_cons; [exact (fg_fv _ _ H4)|].
    apply fg_nil.
    - exact I.
    - lia. }
  intros o O. node_read O W M.
  split; [exact (kind_is _ _ o O)|].
  split; [eapply (r_required _ o W M); [reflexivity|reflexivity|exact H1]|].
  split; [eapply (r_required _ o W M); [reflexivity|reflexivity|exact H2]|].
  split; [eapply (r_optional _ o W M); [reflexivity|reflexivity|exact H3]|].
  eapply (r_optional _ o W M); [reflexivity|reflexivity|exact H4].
Qed.

Lemma as_page_meta cell id d s1 s2 s3 s4 s5 s6 s7 : id_fits id ->
  writes (req_rel uuid (pm_entity_guid d)) s1 ->
  writes (req_rel text (pm_cached_title d)) s2 ->
  writes (opt_rel dword (pm_schema_read d)) s3 ->
  writes (opt_rel dword (pm_schema_write d)) s4 ->
  writes (def_rel signed 0%Z (pm_page_level d)) s5 ->
  writes (req_rel qword (pm_created_at d)) s6 ->
  writes (def_rel boolean false (pm_is_deleted d)) s7 ->
  as_written cell (AObject id 0x00020030 [(0x1C001C30, fv s1); (0x1C001CF3, fv s2); (0x14001D82, fv s3); (0x1400348B, fv s4); (0x14001DFF, fv s5); (0x18001C65, fv s6); (0x00001DE9, fv s7)] None None) (fun o => page_meta o d).
Proof.
  intros Hid H1 H2 H3 H4 H5 H6 H7.
  enough_as.
  { node_good Hid. eexists; exists (0%nat). refine (conj _ (conj _ _)).
    -
    eapply fg_cons; [exact (fg_fv _ _ H1)|].
    eapply fg_cons; [exact (fg_fv _ _ H2)|].
    eapply fg_cons; [exact (fg_fv _ _ H3)|].
    eapply fg_cons; [exact (fg_fv _ _ H4)|].
    eapply fg_cons; [exact (fg_fv _ _ H5)|].
    eapply fg_cons; [exact (fg_fv _ _ H6)|].
    eapply fg_cons; [exact (fg_fv _ _ H7)|].
    apply fg_nil.
    - exact I.
    - lia. }
  intros o O. node_read O W M.
  split; [exact (kind_is _ _ o O)|].
  split; [eapply (r_required _ o W M); [reflexivity|reflexivity|exact H1]|].
  split; [eapply (r_required _ o W M); [reflexivity|reflexivity|exact H2]|].
  split; [eapply (r_optional _ o W M); [reflexivity|reflexivity|exact H3]|].
  split; [eapply (r_optional _ o W M); [reflexivity|reflexivity|exact H4]|].
  split; [eapply (r_defaulted _ o W M); [reflexivity|reflexivity|exact H5]|].
  split; [eapply (r_required _ o W M); [reflexivity|reflexivity|exact H6]|].
  eapply (r_defaulted _ o W M); [reflexivity|reflexivity|exact H7].
Qed.

Lemma as_group cell id d s1 s3 : id_fits id ->
  writes (req_rel dword (gr_last_modified d)) s1 ->
  ids_ok (gr_children d) ->
  writes (req_rel byte (gr_child_level d)) s3 ->
  as_written cell (AObject id 0x00060019 [(0x14001D7A, fv s1); (0x24001C20, frefs (gr_children d)); (0x0C001C03, fv s3)] None None) (fun o => group_object o d).
Proof.
  intros Hid H1 (H2 & L2) H3.
  enough_as.
  { node_good Hid. eexists; exists (0%nat). refine (conj _ (conj _ _)).
    -
    eapply fg_cons; [exact (fg_fv _ _ H1)|].
    eapply fg_cons; [refine (fg_refs _ H2 _); lia|].
    eapply fg_cons; [exact (fg_fv _ _ H3)|].
    apply fg_nil.
    - exact I.
    - lia. }
  intros o O. node_read O W M.
  split; [exact (kind_is _ _ o O)|].
  split; [eapply (r_required _ o W M); [reflexivity|reflexivity|exact H1]|].
  split; [eapply (r_children _ _ o W O); [reflexivity|reflexivity]|].
  eapply (r_required _ o W M); [reflexivity|reflexivity|exact H3].
Qed.

Lemma as_outline cell id d s1 s3 s4 s5 s6 s7 s8 s9 s10 s11 s12 s13 s14 s15 s16 s17 s18 s19 s20 s21 s22 : id_fits id ->
  writes (req_rel dword (ou_last_modified d)) s1 ->
  ids_ok (ou_children d) ->
  writes (req_rel byte (ou_child_level d)) s3 ->
  writes (opt_rel float (ou_layout_max_height d)) s4 ->
  writes (opt_rel float (ou_layout_max_width d)) s5 ->
  writes (opt_rel float (ou_layout_reserved_width d)) s6 ->
  writes (opt_rel float (ou_layout_minimum_outline_width d)) s7 ->
  writes (def_rel boolean false (ou_layout_tight_alignment d)) s8 ->
  writes (def_rel boolean false (ou_is_layout_size_set_by_user d)) s9 ->
  writes (opt_rel float (ou_offset_horiz d)) s10 ->
  writes (opt_rel float (ou_offset_vert d)) s11 ->
  writes (opt_rel float (ou_list_spacing d)) s12 ->
  writes (req_rel indents (ou_indent_distance d)) s13 ->
  writes (def_rel alignment None (ou_alignment_in_parent d)) s14 ->
  writes (def_rel alignment None (ou_alignment_self d)) s15 ->
  writes (def_rel boolean false (ou_is_deletable d)) s16 ->
  writes (def_rel boolean false (ou_is_title_date d)) s17 ->
  writes (def_rel inverted true (ou_is_selectable d)) s18 ->
  writes (def_rel boolean false (ou_is_title_text d)) s19 ->
  writes (def_rel boolean false (ou_is_read_only d)) s20 ->
  writes (def_rel boolean false (ou_descendants_cannot_be_moved d)) s21 ->
  writes (def_rel boolean false (ou_tight_layout d)) s22 ->
  as_written cell (AObject id 0x0006000C [(0x14001D7A, fv s1); (0x24001C20, frefs (ou_children d)); (0x0C001C03, fv s3); (0x14001C1C, fv s4); (0x14001C1B, fv s5); (0x14001CDB, fv s6); (0x14001CEC, fv s7); (0x08001CFF, fv s8); (0x08001CBD, fv s9); (0x14001C14, fv s10); (0x14001C15, fv s11); (0x14001CCB, fv s12); (0x1C001C12, fv s13); (0x14001C3E, fv s14); (0x14001C84, fv s15); (0x08001D0C, fv s16); (0x08001CB5, fv s17); (0x08001CB2, fv s18); (0x08001CB4, fv s19); (0x08001CDE, fv s20); (0x08001CF9, fv s21); (0x08001C00, fv s22)] None None) (fun o => outline_object o d).
Proof.
  intros Hid H1 (H2 & L2) H3 H4 H5 H6 H7 H8 H9 H10 H11 H12 H13 H14 H15 H16 H17 H18 H19 H20 H21 H22.
  enough_as.
  { node_good Hid. eexists; exists (0%nat). refine (conj _ (conj _ _)).
    -
    eapply fg_cons; [exact (fg_fv _ _ H1)|].
    eapply fg_cons; [refine (fg_refs _ H2 _); lia|].
    eapply fg_cons; [exact (fg_fv _ _ H3)|].
    eapply fg_cons; [exact (fg_fv _ _ H4)|].
    eapply fg_cons; [exact (fg_fv _ _ H5)|].
    eapply fg_cons; [exact (fg_fv _ _ H6)|].
    eapply fg_cons; [exact (fg_fv _ _ H7)|].
    eapply fg_cons; [exact (fg_fv _ _ H8)|].
    eapply fg_cons; [exact (fg_fv _ _ H9)|].
    eapply fg_cons; [exact (fg_fv _ _ H10)|].
    eapply fg_cons; [exact (fg_fv _ _ H11)|].
    eapply fg_cons; [exact (fg_fv _ _ H12)|].
    eapply fg_cons; [exact (fg_fv _ _ H13)|].
    eapply fg_cons; [exact (fg_fv _ _ H14)|].
    eapply fg_cons; [exact (fg_fv _ _ H15)|].
    eapply fg_cons; [exact (fg_fv _ _ H16)|].
    eapply fg_cons; [exact (fg_fv _ _ H17)|].
    eapply fg_cons; [exact (fg_fv _ _ H18)|].
    eapply fg_cons; [exact (fg_fv _ _ H19)|].
    eapply fg_cons; [exact (fg_fv _ _ H20)|].
    eapply fg_cons; [exact (fg_fv _ _ H21)|].
    eapply fg_cons; [exact (fg_fv _ _ H22)|].
    apply fg_nil.
    - exact I.
    - lia. }
  intros o O. node_read O W M.
  split; [exact (kind_is _ _ o O)|].
  split; [eapply (r_required _ o W M); [reflexivity|reflexivity|exact H1]|].
  split; [eapply (r_children _ _ o W O); [reflexivity|reflexivity]|].
  split; [eapply (r_required _ o W M); [reflexivity|reflexivity|exact H3]|].
  split; [eapply (r_optional _ o W M); [reflexivity|reflexivity|exact H4]|].
  split; [eapply (r_optional _ o W M); [reflexivity|reflexivity|exact H5]|].
  split; [eapply (r_optional _ o W M); [reflexivity|reflexivity|exact H6]|].
  split; [eapply (r_optional _ o W M); [reflexivity|reflexivity|exact H7]|].
  split; [eapply (r_defaulted _ o W M); [reflexivity|reflexivity|exact H8]|].
  split; [eapply (r_defaulted _ o W M); [reflexivity|reflexivity|exact H9]|].
  split; [eapply (r_optional _ o W M); [reflexivity|reflexivity|exact H10]|].
  split; [eapply (r_optional _ o W M); [reflexivity|reflexivity|exact H11]|].
  split; [eapply (r_optional _ o W M); [reflexivity|reflexivity|exact H12]|].
  split; [eapply (r_required _ o W M); [reflexivity|reflexivity|exact H13]|].
  split; [eapply (r_defaulted _ o W M); [reflexivity|reflexivity|exact H14]|].
  split; [eapply (r_defaulted _ o W M); [reflexivity|reflexivity|exact H15]|].
  split; [eapply (r_defaulted _ o W M); [reflexivity|reflexivity|exact H16]|].
  split; [eapply (r_defaulted _ o W M); [reflexivity|reflexivity|exact H17]|].
  split; [eapply (r_defaulted _ o W M); [reflexivity|reflexivity|exact H18]|].
  split; [eapply (r_defaulted _ o W M); [reflexivity|reflexivity|exact H19]|].
  split; [eapply (r_defaulted _ o W M); [reflexivity|reflexivity|exact H20]|].
  split; [eapply (r_defaulted _ o W M); [reflexivity|reflexivity|exact H21]|].
  eapply (r_defaulted _ o W M); [reflexivity|reflexivity|exact H22].
Qed.

Lemma as_page cell id d s1 s2 s3 s6 s7 s8 s9 s10 s11 s12 s13 s14 s15 s16 : id_fits id ->
  writes (opt_rel dword (pd_last_modified d)) s1 ->
  writes (opt_rel text (pd_cached_title d)) s2 ->
  writes (opt_rel text (pd_author d)) s3 ->
  ids_ok (pd_content d) ->
  if_any id_fits (pd_title d) ->
  writes (def_rel boolean false (pd_orientation_portrait d)) s6 ->
  writes (opt_rel float (pd_page_width d)) s7 ->
  writes (opt_rel float (pd_page_height d)) s8 ->
  writes (opt_rel float (pd_margin_origin_x d)) s9 ->
  writes (opt_rel float (pd_margin_origin_y d)) s10 ->
  writes (opt_rel float (pd_margin_left d)) s11 ->
  writes (opt_rel float (pd_margin_right d)) s12 ->
  writes (opt_rel float (pd_margin_top d)) s13 ->
  writes (opt_rel float (pd_margin_bottom d)) s14 ->
  writes (def_rel (SpecNodes.entry VU8 page_size_table) PsAuto (pd_page_size d)) s15 ->
  writes (def_rel boolean false (pd_rtl d)) s16 ->
  as_written cell (AObject id 0x0006000B [(0x14001D7A, fv s1); (0x1C001D3C, fv s2); (0x1C001D75, fv s3); (0x24001C20, frefs (pd_content d)); (0x24001D5F, frefs (opt_list (pd_title d))); (0x08001C8E, fv s6); (0x14001C01, fv s7); (0x14001C02, fv s8); (0x14001D0F, fv s9); (0x14001D10, fv s10); (0x14001C4E, fv s11); (0x14001C4F, fv s12); (0x14001C4C, fv s13); (0x14001C4D, fv s14); (0x14001C8B, fv s15); (0x08001C92, fv s16)] None None) (fun o => page_object o d).
Proof.
  intros Hid H1 H2 H3 (H4 & L4) H5 H6 H7 H8 H9 H10 H11 H12 H13 H14 H15 H16.
  enough_as.
  { node_good Hid. eexists; exists (0%nat). refine (conj _ (conj _ _)).
    -
    eapply fg_cons; [exact (fg_fv _ _ H1)|].
    eapply fg_cons; [exact (fg_fv _ _ H2)|].
    eapply fg_cons; [exact (fg_fv _ _ H3)|].
    eapply fg_cons; [refine (fg_refs _ H4 _); lia|].
    eapply fg_cons; [refine (fg_refs _ (opt_list_fits _ H5) _); pose proof (opt_list_length (pd_title d)); lia|].
    eapply fg_cons; [exact (fg_fv _ _ H6)|].
    eapply fg_cons; [exact (fg_fv _ _ H7)|].
    eapply fg_cons; [exact (fg_fv _ _ H8)|].
    eapply fg_cons; [exact (fg_fv _ _ H9)|].
    eapply fg_cons; [exact (fg_fv _ _ H10)|].
    eapply fg_cons; [exact (fg_fv _ _ H11)|].
    eapply fg_cons; [exact (fg_fv _ _ H12)|].
    eapply fg_cons; [exact (fg_fv _ _ H13)|].
    eapply fg_cons; [exact (fg_fv _ _ H14)|].
    eapply fg_cons; [exact (fg_fv _ _ H15)|].
    eapply fg_cons; [exact (fg_fv _ _ H16)|].
    apply fg_nil.
    - exact I.
    - pose proof (opt_list_length (pd_title d)). lia. }
  intros o O. node_read O W M.
  split; [exact (kind_is _ _ o O)|].
  split; [eapply (r_optional _ o W M); [reflexivity|reflexivity|exact H1]|].
  split; [eapply (r_optional _ o W M); [reflexivity|reflexivity|exact H2]|].
  split; [eapply (r_optional _ o W M); [reflexivity|reflexivity|exact H3]|].
  split; [eapply (r_children _ _ o W O); [reflexivity|reflexivity]|].
  split; [exists (opt_list (pd_title d)); split; [eapply (r_children _ _ o W O); [reflexivity|reflexivity]|now destruct (pd_title d)]|].
  split; [eapply (r_defaulted _ o W M); [reflexivity|reflexivity|exact H6]|].
  split; [eapply (r_optional _ o W M); [reflexivity|reflexivity|exact H7]|].
  split; [eapply (r_optional _ o W M); [reflexivity|reflexivity|exact H8]|].
  split; [eapply (r_optional _ o W M); [reflexivity|reflexivity|exact H9]|].
  split; [eapply (r_optional _ o W M); [reflexivity|reflexivity|exact H10]|].
  split; [eapply (r_optional _ o W M); [reflexivity|reflexivity|exact H11]|].
  split; [eapply (r_optional _ o W M); [reflexivity|reflexivity|exact H12]|].
  split; [eapply (r_optional _ o W M); [reflexivity|reflexivity|exact H13]|].
  split; [eapply (r_optional _ o W M); [reflexivity|reflexivity|exact H14]|].
  split; [eapply (r_defaulted _ o W M); [reflexivity|reflexivity|exact H15]|].
  eapply (r_defaulted _ o W M); [reflexivity|reflexivity|exact H16].
Qed.

Lemma as_series cell id d s1 s4 : id_fits id ->
  writes (req_rel uuid (pn_entity_guid d)) s1 ->
  cells_ok cell (pn_page_spaces d) ->
  ids_ok (pn_page_metadata d) ->
  writes (opt_rel qword (pn_created_at d)) s4 ->
  as_written cell (AObject id 0x00060008 [(0x1C001C30, fv s1); (0x2C001D63, fspaces (pn_page_spaces d)); (0x24003442, frefs (pn_page_metadata d)); (0x18001C65, fv s4)] None None) (fun o => series_node o d).
Proof.
  intros Hid H1 (H2 & K2 & L2) (H3 & L3) H4.
  enough_as.
  { node_good Hid. eexists; exists (0%nat). refine (conj _ (conj _ _)).
    -
    eapply fg_cons; [exact (fg_fv _ _ H1)|].
    eapply fg_cons; [refine (fg_spaces _ H2 _); lia|].
    eapply fg_cons; [refine (fg_refs _ H3 _); lia|].
    eapply fg_cons; [exact (fg_fv _ _ H4)|].
    apply fg_nil.
    - exact I.
    - lia. }
  intros o O. node_read O W M.
  split; [exact (kind_is _ _ o O)|].
  split; [eapply (r_required _ o W M); [reflexivity|reflexivity|exact H1]|].
  split; [eapply (r_spaces _ _ o W O); [reflexivity|reflexivity|]; destruct s1, s4; cbn [a cells_of ao_props ao_fields ao_last given given_last flat_map fst snd app fspaces frefs ap_cells fv option_map]; rewrite ?app_nil_r; exact K2|].
  split; [eapply (r_children _ _ o W O); [reflexivity|reflexivity]|].
  eapply (r_optional _ o W M); [reflexivity|reflexivity|exact H4].
Qed.

Lemma as_section cell id d s1 s3 : id_fits id -> sn_context_id d = fst cell ->
  writes (req_rel uuid (sn_entity_guid d)) s1 -> ids_ok (sn_page_series d) -> writes (req_rel qword (sn_created_at d)) s3 ->
  as_written cell (AObject id 0x00060007 [(0x1C001C30, fv s1); (0x24001C20, frefs (sn_page_series d)); (0x18001C65, fv s3)] None None) (fun o => section_node o d).
Proof.
  intros Hid Hc H1 (H2 & L2) H3.
  enough_as.
  { node_good Hid. eexists; exists (0%nat). refine (conj _ (conj _ _)).
    - eapply fg_cons; [exact (fg_fv _ _ H1)|]. eapply fg_cons; [refine (fg_refs _ H2 _); lia|]. eapply fg_cons; [exact (fg_fv _ _ H3)|]. apply fg_nil.
    - exact I.
    - lia. }
  intros o O. node_read O W M. split; [exact (kind_is _ _ o O)|]. split; [rewrite (context_is _ _ o O); exact Hc|].
  split; [eapply (r_required _ o W M); [reflexivity|reflexivity|exact H1]|].
  split; [eapply (r_children _ _ o W O); [reflexivity|reflexivity]|].
  eapply (r_required _ o W M); [reflexivity|reflexivity|exact H3].
Qed.

Lemma as_manifest cell id page : id_fits id -> id_fits page -> as_written cell (AObject id 0x00060037 [(0x24001C1F, frefs [page])] None None) (fun o => manifest_node o page).
Proof.
  intros Hid Hp. enough_as.
  { node_good Hid. eexists; exists (0%nat). refine (conj _ (conj _ _)).
    - eapply fg_cons; [apply fg_refs; [constructor; [exact Hp|constructor]|reflexivity]|apply fg_nil].
    - exact I.
    - reflexivity. }
  intros o O. node_read O W M. split; [exact (kind_is _ _ o O)|]. exists []. eapply (r_references _ _ o W O); reflexivity.
Qed.
