(** Drawings with given values, read as the nodes of a document: the lemmas of
    [WriteNodes.v] that the file of [QuarticProofs.v] needs, with the values in view. *)
From Coq Require Import Lia ZifyBool ZifyNat ZifyN.
From Verif Require Import Base Codec SpecCodec Package PropSet PropIds SpecPropSet Store Shapes Props Nodes Doc SpecRefs SpecValues SpecNodes SpecDoc
  SpecValid SpecFile DescProofs DescProofs2 DescProofs3 EncodeProofs WriteNodes DoubleNodes.

Lemma as_ink_container cell id d s1 s2 s3 s5 : id_fits id ->
  writes (opt_rel float (ic_offset_horiz d)) s1 ->
  writes (opt_rel float (ic_offset_vert d)) s2 ->
  writes (opt_rel dword (ic_last_modified d)) s3 ->
  if_any id_fits (ic_ink_data d) ->
  writes (opt_rel float (ic_scaling_x d)) s5 ->
  ic_scaling_y d = ic_scaling_x d ->
  as_written cell (AObject id 0x00060014 [(0x14001C14, fv s1); (0x14001C15, fv s2); (0x14001D7A, fv s3); (0x20003415, fref (ic_ink_data d)); (0x14001C46, fv s5)] None None)
    (fun o => ink_container o d).
Proof.
  intros Hid H1 H2 H3 H4 H5 E6.
  enough_as.
  { node_good Hid. eexists; exists (0%nat). refine (conj _ (conj _ _)).
    -
    eapply fg_cons; [exact (fg_fv _ _ H1)|].
    eapply fg_cons; [exact (fg_fv _ _ H2)|].
    eapply fg_cons; [exact (fg_fv _ _ H3)|].
    eapply fg_cons; [apply fg_ref; intros r Er; unfold if_any in H4; rewrite ?Er in H4; try (injection Er as <-); exact H4|].
    eapply fg_cons; [exact (fg_fv _ _ H5)|].
    apply fg_nil.
    - exact I.
    - lia. }
  intros o O. node_read O W M.
  split; [exact (kind_is _ _ o O)|].
  split; [eapply (r_optional _ o W M); [reflexivity|reflexivity|exact H1]|].
  split; [eapply (r_optional _ o W M); [reflexivity|reflexivity|exact H2]|].
  split; [eapply (r_optional _ o W M); [reflexivity|reflexivity|exact H3]|].
  split; [eapply (r_reference _ _ o W O); [reflexivity|reflexivity]|].
  split; [eapply (r_optional _ o W M); [reflexivity|reflexivity|exact H5]|].
  rewrite E6; eapply (r_optional _ o W M); [reflexivity|reflexivity|exact H5].
Qed.

Lemma as_ink_node cell id d s2 : id_fits id -> ids_ok (ik_strokes d) -> ik_bounding_box d = None -> writes (opt_rel dwords None) s2 ->
  as_written cell (AObject id 0x0002003B [(0x24003416, frefs (ik_strokes d)); (0x1C003418, fv s2)] None None) (fun o => ink_node o d).
Proof.
  intros Hid (H1 & L1) B H2. enough_as.
  { node_good Hid. eexists; exists (0%nat). refine (conj _ (conj _ _)).
    - eapply fg_cons; [refine (fg_refs _ H1 _); lia|]. eapply fg_cons; [exact (fg_fv _ _ H2)|apply fg_nil].
    - exact I.
    - lia. }
  intros o O. node_read O W M. split; [exact (kind_is _ _ o O)|]. split; [eapply (r_references _ _ o W O); reflexivity|].
  exists None. split; [eapply (r_optional _ o W M); [reflexivity|reflexivity|exact H2]|]. rewrite B.
  right. split; [|reflexivity]. intros (x & y & z & w & E). discriminate E.
Qed.

Lemma as_stroke cell id d s1 s2 s3 : id_fits id ->
  writes (req_rel path (ss_path d)) s1 ->
  writes (req_rel (SpecNodes.entry VU8 bias_table) (ss_bias d)) s2 ->
  writes (opt_rel dword (ss_language_code d)) s3 ->
  if_any id_fits (Some (ss_properties d)) ->
  as_written cell (AObject id 0x00020047 [(0x1C00340B, fv s1); (0x0C00341C, fv s2); (0x14001C3B, fv s3); (0x20003409, fref (Some (ss_properties d)))] None None)
    (fun o => stroke_node o d).
Proof.
  intros Hid H1 H2 H3 H4. enough_as.
  { node_good Hid. eexists; exists (0%nat). refine (conj _ (conj _ _)).
    -
    eapply fg_cons; [exact (fg_fv _ _ H1)|].
    eapply fg_cons; [exact (fg_fv _ _ H2)|].
    eapply fg_cons; [exact (fg_fv _ _ H3)|].
    eapply fg_cons; [apply fg_ref; intros r Er; unfold if_any in H4; rewrite ?Er in H4; try (injection Er as <-); exact H4|].
    apply fg_nil.
    - exact I.
    - lia. }
  intros o O. node_read O W M.
  split; [exact (kind_is _ _ o O)|].
  split; [eapply (r_required _ o W M); [reflexivity|reflexivity|exact H1]|].
  split; [eapply (r_required _ o W M); [reflexivity|reflexivity|exact H2]|].
  split; [eapply (r_optional _ o W M); [reflexivity|reflexivity|exact H3]|].
  eapply (r_reference _ _ o W O); [reflexivity|reflexivity].
Qed.

Lemma as_stroke_properties cell id d s1 s2 s3 s4 s5 s6 s7 s8 s9 s10 : id_fits id ->
  writes (def_rel boolean false (sp_aliased d)) s1 ->
  writes (def_rel boolean false (sp_fit_to_curve d)) s2 ->
  writes (def_rel boolean false (sp_ignore_pressure d)) s3 ->
  writes (opt_rel byte (sp_pen_tip d)) s4 ->
  writes (opt_rel byte (sp_raster_operation d)) s5 ->
  writes (opt_rel byte (sp_transparency d)) s6 ->
  writes (req_rel float (sp_height d)) s7 ->
  writes (req_rel float (sp_width d)) s8 ->
  writes (opt_rel dword (sp_color d)) s9 ->
  writes (def_rel dimension_table [] (sp_dimensions d)) s10 ->
  as_written cell (AObject id 0x00120048 [(0x8000340E, fv s1); (0x80003410, fv s2); (0x08003411, fv s3); (0x0C003412, fv s4); (0x0C003413, fv s5); (0x0C003414, fv s6); (0x1400340D, fv s7); (0x1400340C, fv s8); (0x1400340F, fv s9); (0x1C00340A, fv s10)] None None)
    (fun o => stroke_properties o d).
Proof.
  intros Hid H1 H2 H3 H4 H5 H6 H7 H8 H9 H10. enough_as.
  { node_good Hid. eexists; exists (0%nat). refine (conj _ (conj _ _)).
    -
    eapply fg_cons; [exact (fg_fv _ _ H1)|].
    eapply fg_cons; [exact (fg_fv _ _ H2)|].
    eapply fg_cons; [exact (fg_fv _ _ H3)|].
    eapply fg_cons; [exact (fg_fv _ _ H4)|].
    eapply fg_cons; [exact (fg_fv _ _ H5)|].
    eapply fg_cons; [exact (fg_fv _ _ H6)|].
    eapply fg_cons; [exact (fg_fv _ _ H7)|].
    eapply fg_cons; [exact (fg_fv _ _ H8)|].
    eapply fg_cons; [exact (fg_fv _ _ H9)|].
    eapply fg_cons; [exact (fg_fv _ _ H10)|].
    apply fg_nil.
    - exact I.
    - lia. }
  intros o O. node_read O W M.
  split; [exact (kind_is _ _ o O)|].
  split; [eapply (r_defaulted _ o W M); [reflexivity|reflexivity|exact H1]|].
  split; [eapply (r_defaulted _ o W M); [reflexivity|reflexivity|exact H2]|].
  split; [eapply (r_defaulted _ o W M); [reflexivity|reflexivity|exact H3]|].
  split; [eapply (r_optional _ o W M); [reflexivity|reflexivity|exact H4]|].
  split; [eapply (r_optional _ o W M); [reflexivity|reflexivity|exact H5]|].
  split; [eapply (r_optional _ o W M); [reflexivity|reflexivity|exact H6]|].
  split; [eapply (r_required _ o W M); [reflexivity|reflexivity|exact H7]|].
  split; [eapply (r_required _ o W M); [reflexivity|reflexivity|exact H8]|].
  split; [eapply (r_optional _ o W M); [reflexivity|reflexivity|exact H9]|].
  eapply (r_defaulted _ o W M); [reflexivity|reflexivity|exact H10].
Qed.
