(** For every valid content of a node, an object that is read as it. *)
From Coq Require Import Lia ZifyBool ZifyNat ZifyN.
From Verif Require Import Base Codec SpecCodec Package PropSet PropIds SpecPropSet Store Shapes Props Nodes Doc SpecRefs SpecValues SpecNodes SpecDoc
  SpecValid SpecFile DescProofs DescProofs2 DescProofs3 EncodeProofs.

Definition has (P : option pvalue -> Prop) : Prop := exists s, writes P s.
Definition ids_ok (l : list exguid) : Prop := Forall id_fits l /\ N.of_nat (length l) < 2 ^ 22.
Definition tags_ok (l : list tag_data) : Prop := Forall tag_fits l /\ N.of_nat (length l) < 2 ^ 22.
Definition cells_ok (cell : cellid) (l : list cellid) : Prop :=
  Forall cell_fits l /\ Forall (fun c => exguid_eqb (snd c) (snd cell) = false) l /\ N.of_nat (length l) < 2 ^ 22.
Definition written (cell : cellid) (id : exguid) (P : object -> Prop) : Prop :=
  exists a, ao_id a = id /\ ao_good a /\ forall o, object_is cell (describe a) o -> P o.
Definition is_run (fs : list (N * option aprop)) (r : object) : Prop :=
  ao_wf (run_object fs) /\ set_means (os_props (ao_set (run_object fs))) (op_props (ob_props r)).

Fixpoint nodup (l : list N) : bool := match l with [] => true | x :: r => negb (existsb (N.eqb x) r) && nodup r end.
Lemma nodup_ok l : nodup l = true -> NoDup l.
Proof.
  induction l as [|x l IH]; intro H; constructor; cbn in H; apply andb_true_iff in H as (H & N); [|auto].
  intro I. apply negb_true_iff in H. assert (E : existsb (N.eqb x) l = true); [|congruence].
  apply existsb_exists. exists x. split; [exact I|apply N.eqb_refl].
Qed.

Definition opt_list {A} (x : option A) : list A := match x with Some a => [a] | None => [] end.
Lemma opt_list_fits x : if_any id_fits x -> Forall id_fits (opt_list x).
Proof. destruct x; cbn; intro H; [constructor; [exact H|constructor]|constructor]. Qed.
Lemma opt_list_length {A} (x : option A) : (length (opt_list x) <= 1)%nat.
Proof. destruct x; cbn; lia. Qed.

(** The Unicode text, or only the other one. *)
Definition text_written (x : option (list N)) (sa sb : option sval) : Prop :=
  (exists s, sa = Some s /\ sb = None /\ writes (opt_rel text x) sa) \/ (sa = None /\ writes (opt_rel SpecNodes.raw x) sb).
Definition has_text (x : option (list N)) : Prop := exists sa sb, text_written x sa sb.
Lemma has_text_1 x sa sb : text_written x sa sb -> fgood 0 (fv sa).
Proof. intros [(s & _ & _ & H)|(-> & _)]; [exact (fg_fv _ _ H)|exact I]. Qed.
Lemma has_text_2 x sa sb : text_written x sa sb -> fgood 0 (fv sb).
Proof. intros [(s & _ & -> & _)|(_ & H)]; [exact I|exact (fg_fv _ _ H)]. Qed.
Lemma r_paragraph_text a o (W : ao_wf a) (M : set_means (os_props (ao_set a)) (op_props (ob_props o))) x sa sb :
  text_written x sa sb -> misses 0x1C001C22 a = true -> field_at 0x1C001C22 (ao_fields a) = fv sa ->
  misses 0x1C003498 a = true -> field_at 0x1C003498 (ao_fields a) = fv sb -> paragraph_text o x.
Proof.
  intros H M1 F1 M2 F2. unfold paragraph_text. destruct H as [(s & E & _ & H)|(E & H)].
  - pose proof (r_value a o W M _ _ _ M1 F1 H) as V. unfold opt_rel in V. destruct (stored o 0x1C001C22); [exact V|]. subst x.
    subst sa. cbn in F1. exfalso. destruct H as (G & H). destruct (stored_some a o W M 0x1C001C22 (AProp s [] []) (field_prop _ _ _ M1 F1)) as (v & _ & V2). specialize (H v V2).
    destruct H as (y & _ & Hy). discriminate Hy.
  - subst sa. rewrite (r_no_value a o W M 0x1C001C22 M1 F1). exact (r_optional a o W M _ _ _ _ M2 F2 H).
Qed.

Ltac enough_good := split; [reflexivity|]; match goal with |- ao_good ?a /\ _ => cut (ao_good a); [let G := fresh "G" in intro G; split; [exact G|]|] end; cycle 1.
Ltac node_good Hid :=
  refine (conj _ (conj _ (conj _ (conj Hid (conj eq_refl I)))));
  [apply nodup_ok; reflexivity|cbn [ao_fields ao_last]|cbn [ao_fields length]; lia].
Ltac node_read O W M := 
  match goal with G : ao_good ?a |- _ => let A := fresh "a" in set (A := a) in *; pose proof (good_wf _ G) as W; pose proof (described_props _ _ _ O) as M end.

Lemma w_section_meta cell id d : id_fits id ->
  has (req_rel dword (sm_schema_read d)) ->
  has (req_rel dword (sm_schema_write d)) ->
  has (opt_rel text (sm_display_name d)) ->
  has (opt_rel argb (sm_color d)) ->
  written cell id (fun o => section_meta o d).
Proof.
  intros Hid (s1 & H1) (s2 & H2) (s3 & H3) (s4 & H4).
  exists (AObject id 0x00020031 [(0x14001D82, fv s1); (0x1400348B, fv s2); (0x1C00349B, fv s3); (0x14001CBE, fv s4)] None None).
  enough_good.
  { node_good Hid. eexists; exists (0%nat). refine (conj _ (conj _ _)).
    -
    eapply fg_cons; [exact (fg_fv _ _ H1)|].
    eapply fg_cons; [exact (fg_fv _ _ H2)|].
    eapply fg_cons; [exact (fg_fv _ _ H3)|].
    eapply fg_cons; [exact (fg_fv _ _ H4)|].
    apply fg_nil.
    - exact I.
    - lia. }
  intros o O. node_read O W M.
  split; [exact (kind_is _ _ o O)|].
  split; [eapply (r_required _ o W M); [reflexivity|reflexivity|exact H1]|].
  split; [eapply (r_required _ o W M); [reflexivity|reflexivity|exact H2]|].
  split; [eapply (r_optional _ o W M); [reflexivity|reflexivity|exact H3]|].
  eapply (r_optional _ o W M); [reflexivity|reflexivity|exact H4].
Qed.

Lemma w_page_meta cell id d : id_fits id ->
  has (req_rel uuid (pm_entity_guid d)) ->
  has (req_rel text (pm_cached_title d)) ->
  has (opt_rel dword (pm_schema_read d)) ->
  has (opt_rel dword (pm_schema_write d)) ->
  has (def_rel signed 0%Z (pm_page_level d)) ->
  has (req_rel qword (pm_created_at d)) ->
  has (def_rel boolean false (pm_is_deleted d)) ->
  written cell id (fun o => page_meta o d).
Proof.
  intros Hid (s1 & H1) (s2 & H2) (s3 & H3) (s4 & H4) (s5 & H5) (s6 & H6) (s7 & H7).
  exists (AObject id 0x00020030 [(0x1C001C30, fv s1); (0x1C001CF3, fv s2); (0x14001D82, fv s3); (0x1400348B, fv s4); (0x14001DFF, fv s5); (0x18001C65, fv s6); (0x00001DE9, fv s7)] None None).
  enough_good.
  { node_good Hid. eexists; exists (0%nat). refine (conj _ (conj _ _)).
    -
    eapply fg_cons; [exact (fg_fv _ _ H1)|].
    eapply fg_cons; [exact (fg_fv _ _ H2)|].
    eapply fg_cons; [exact (fg_fv _ _ H3)|].
    eapply fg_cons; [exact (fg_fv _ _ H4)|].
    eapply fg_cons; [exact (fg_fv _ _ H5)|].
    eapply fg_cons; [exact (fg_fv _ _ H6)|].
    eapply fg_cons; [exact (fg_fv _ _ H7)|].
    apply fg_nil.
    - exact I.
    - lia. }
  intros o O. node_read O W M.
  split; [exact (kind_is _ _ o O)|].
  split; [eapply (r_required _ o W M); [reflexivity|reflexivity|exact H1]|].
  split; [eapply (r_required _ o W M); [reflexivity|reflexivity|exact H2]|].
  split; [eapply (r_optional _ o W M); [reflexivity|reflexivity|exact H3]|].
  split; [eapply (r_optional _ o W M); [reflexivity|reflexivity|exact H4]|].
  split; [eapply (r_defaulted _ o W M); [reflexivity|reflexivity|exact H5]|].
  split; [eapply (r_required _ o W M); [reflexivity|reflexivity|exact H6]|].
  eapply (r_defaulted _ o W M); [reflexivity|reflexivity|exact H7].
Qed.

Lemma w_title cell id d : id_fits id ->
  has (req_rel dword (tn_last_modified d)) ->
  ids_ok (tn_children d) ->
  has (req_rel float (tn_offset_horizontal d)) ->
  has (req_rel float (tn_offset_vertical d)) ->
  has (def_rel alignment None (tn_alignment_in_parent d)) ->
  has (def_rel alignment None (tn_alignment_self d)) ->
  written cell id (fun o => title_object o d).
Proof.
  intros Hid (s1 & H1) (H2 & L2) (s3 & H3) (s4 & H4) (s5 & H5) (s6 & H6).
  exists (AObject id 0x0006002C [(0x14001D7A, fv s1); (0x24001C20, frefs (tn_children d)); (0x14001C14, fv s3); (0x14001C15, fv s4); (0x14001C3E, fv s5); (0x14001C84, fv s6)] None None).
  enough_good.
  { node_good Hid. eexists; exists (0%nat). refine (conj _ (conj _ _)).
    -
    eapply fg_cons; [exact (fg_fv _ _ H1)|].
    eapply fg_cons; [refine (fg_refs _ H2 _); lia|].
    eapply fg_cons; [exact (fg_fv _ _ H3)|].
    eapply fg_cons; [exact (fg_fv _ _ H4)|].
    eapply fg_cons; [exact (fg_fv _ _ H5)|].
    eapply fg_cons; [exact (fg_fv _ _ H6)|].
    apply fg_nil.
    - exact I.
    - lia. }
  intros o O. node_read O W M.
  split; [exact (kind_is _ _ o O)|].
  split; [eapply (r_required _ o W M); [reflexivity|reflexivity|exact H1]|].
  split; [eapply (r_references _ _ o W O); [reflexivity|reflexivity]|].
  split; [eapply (r_required _ o W M); [reflexivity|reflexivity|exact H3]|].
  split; [eapply (r_required _ o W M); [reflexivity|reflexivity|exact H4]|].
  split; [eapply (r_defaulted _ o W M); [reflexivity|reflexivity|exact H5]|].
  eapply (r_defaulted _ o W M); [reflexivity|reflexivity|exact H6].
Qed.

Lemma w_file cell id d : id_fits id ->
  has (req_rel dword (ef_last_modified d)) ->
  if_any id_fits (ef_picture_container d) ->
  has (opt_rel float (ef_layout_max_width d)) ->
  has (opt_rel float (ef_layout_max_height d)) ->
  has (def_rel boolean false (ef_is_layout_size_set_by_user d)) ->
  has (opt_rel text (ef_text d)) ->
  has (opt_rel word (ef_text_language_code d)) ->
  has (def_rel alignment None (ef_alignment_in_parent d)) ->
  has (def_rel alignment None (ef_alignment_self d)) ->
  if_any id_fits (Some (ef_container d)) ->
  has (req_rel text (ef_name d)) ->
  has (opt_rel text (ef_source_path d)) ->
  has (def_rel media FtUnknown (ef_file_type d)) ->
  has (opt_rel float (ef_picture_width d)) ->
  has (opt_rel float (ef_picture_height d)) ->
  tags_ok (ef_note_tags d) ->
  has (opt_rel float (ef_offset_horiz d)) ->
  has (opt_rel float (ef_offset_vert d)) ->
  written cell id (fun o => file_node o d).
Proof.
  intros Hid (s1 & H1) H2 (s3 & H3) (s4 & H4) (s5 & H5) (s6 & H6) (s7 & H7) (s8 & H8) (s9 & H9) H10 (s11 & H11) (s12 & H12) (s13 & H13) (s14 & H14) (s15 & H15) (H16 & L16) (s17 & H17) (s18 & H18).
  exists (AObject id 0x00060035 [(0x14001D7A, fv s1); (0x20001C3F, fref (ef_picture_container d)); (0x14001C1B, fv s3); (0x14001C1C, fv s4); (0x08001CBD, fv s5); (0x1C001C22, fv s6); (0x10001CFE, fv s7); (0x14001C3E, fv s8); (0x14001C84, fv s9); (0x20001D9B, fref (Some (ef_container d))); (0x1C001D9C, fv s11); (0x1C001D9D, fv s12); (0x14001D24, fv s13); (0x140034CD, fv s14); (0x140034CE, fv s15); (0x14001C14, fv s17); (0x14001C15, fv s18)] (ftags (ef_note_tags d)) None).
  enough_good.
  { node_good Hid. eexists; exists (length (ef_note_tags d)). refine (conj _ (conj _ _)).
    -
    eapply fg_cons; [exact (fg_fv _ _ H1)|].
    eapply fg_cons; [apply fg_ref; intros r Er; unfold if_any in H2; rewrite ?Er in H2; try (injection Er as <-); exact H2|].
    eapply fg_cons; [exact (fg_fv _ _ H3)|].
    eapply fg_cons; [exact (fg_fv _ _ H4)|].
    eapply fg_cons; [exact (fg_fv _ _ H5)|].
    eapply fg_cons; [exact (fg_fv _ _ H6)|].
    eapply fg_cons; [exact (fg_fv _ _ H7)|].
    eapply fg_cons; [exact (fg_fv _ _ H8)|].
    eapply fg_cons; [exact (fg_fv _ _ H9)|].
    eapply fg_cons; [apply fg_ref; intros r Er; unfold if_any in H10; rewrite ?Er in H10; try (injection Er as <-); exact H10|].
    eapply fg_cons; [exact (fg_fv _ _ H11)|].
    eapply fg_cons; [exact (fg_fv _ _ H12)|].
    eapply fg_cons; [exact (fg_fv _ _ H13)|].
    eapply fg_cons; [exact (fg_fv _ _ H14)|].
    eapply fg_cons; [exact (fg_fv _ _ H15)|].
    eapply fg_cons; [exact (fg_fv _ _ H17)|].
    eapply fg_cons; [exact (fg_fv _ _ H18)|].
    apply fg_nil.
    - refine (lg_tags _ H16 _); lia.
    - lia. }
  intros o O. node_read O W M.
  split; [exact (kind_is _ _ o O)|].
  split; [eapply (r_required _ o W M); [reflexivity|reflexivity|exact H1]|].
  split; [eapply (r_reference _ _ o W O); [reflexivity|reflexivity]|].
  split; [eapply (r_optional _ o W M); [reflexivity|reflexivity|exact H3]|].
  split; [eapply (r_optional _ o W M); [reflexivity|reflexivity|exact H4]|].
  split; [eapply (r_defaulted _ o W M); [reflexivity|reflexivity|exact H5]|].
  split; [eapply (r_optional _ o W M); [reflexivity|reflexivity|exact H6]|].
  split; [eapply (r_optional _ o W M); [reflexivity|reflexivity|exact H7]|].
  split; [eapply (r_defaulted _ o W M); [reflexivity|reflexivity|exact H8]|].
  split; [eapply (r_defaulted _ o W M); [reflexivity|reflexivity|exact H9]|].
  split; [eapply (r_reference _ _ o W O); [reflexivity|reflexivity]|].
  split; [eapply (r_required _ o W M); [reflexivity|reflexivity|exact H11]|].
  split; [eapply (r_optional _ o W M); [reflexivity|reflexivity|exact H12]|].
  split; [eapply (r_defaulted _ o W M); [reflexivity|reflexivity|exact H13]|].
  split; [eapply (r_optional _ o W M); [reflexivity|reflexivity|exact H14]|].
  split; [eapply (r_optional _ o W M); [reflexivity|reflexivity|exact H15]|].
  split; [eapply (r_tags _ _ o W O); [reflexivity|reflexivity]|].
  split; [eapply (r_optional _ o W M); [reflexivity|reflexivity|exact H17]|].
  eapply (r_optional _ o W M); [reflexivity|reflexivity|exact H18].
Qed.

Lemma w_iframe cell id d : id_fits id ->
  has (opt_rel dword (if_embed_type d)) ->
  has (req_rel text (if_source_url d)) ->
  written cell id (fun o => iframe_object o d).
Proof.
  intros Hid (s1 & H1) (s2 & H2).
  exists (AObject id 0x00060058 [(0x140035F2, fv s1); (0x1C0035F3, fv s2)] None None).
  enough_good.
  { node_good Hid. eexists; exists (0%nat). refine (conj _ (conj _ _)).
    -
    eapply fg_cons; [exact (fg_fv _ _ H1)|].
    eapply fg_cons; [exact (fg_fv _ _ H2)|].
    apply fg_nil.
    - exact I.
    - lia. }
  intros o O. node_read O W M.
  split; [exact (kind_is _ _ o O)|].
  split; [eapply (r_optional _ o W M); [reflexivity|reflexivity|exact H1]|].
  eapply (r_required _ o W M); [reflexivity|reflexivity|exact H2].
Qed.

Lemma w_image cell id d : id_fits id ->
  has (opt_rel dword (im_last_modified d)) ->
  if_any id_fits (im_picture_container d) ->
  has (opt_rel float (im_layout_max_width d)) ->
  has (opt_rel float (im_layout_max_height d)) ->
  has (def_rel boolean false (im_is_layout_size_set_by_user d)) ->
  has (opt_rel dword (im_language_code d)) ->
  has (opt_rel text (im_alt_text d)) ->
  has (def_rel alignment None (im_alignment_in_parent d)) ->
  has (def_rel alignment None (im_alignment_self d)) ->
  has (opt_rel text (im_filename d)) ->
  has (opt_rel dword (im_displayed_page_number d)) ->
  has (opt_rel text (im_text d)) ->
  has (opt_rel word (im_text_language_code d)) ->
  has (opt_rel float (im_picture_width d)) ->
  has (opt_rel float (im_picture_height d)) ->
  has (opt_rel text (im_hyperlink_url d)) ->
  tags_ok (im_note_tags d) ->
  has (opt_rel float (im_offset_horiz d)) ->
  has (opt_rel float (im_offset_vert d)) ->
  has (def_rel boolean false (im_is_background d)) ->
  ids_ok (im_iframe d) ->
  written cell id (fun o => image_object o d).
Proof.
  intros Hid (s1 & H1) H2 (s3 & H3) (s4 & H4) (s5 & H5) (s6 & H6) (s7 & H7) (s8 & H8) (s9 & H9) (s10 & H10) (s11 & H11) (s12 & H12) (s13 & H13) (s14 & H14) (s15 & H15) (s16 & H16) (H17 & L17) (s18 & H18) (s19 & H19) (s20 & H20) (H21 & L21).
  exists (AObject id 0x00060011 [(0x14001D7A, fv s1); (0x20001C3F, fref (im_picture_container d)); (0x14001C1B, fv s3); (0x14001C1C, fv s4); (0x08001CBD, fv s5); (0x14001C3B, fv s6); (0x1C001E58, fv s7); (0x14001C3E, fv s8); (0x14001C84, fv s9); (0x1C001DD7, fv s10); (0x14003480, fv s11); (0x1C001C22, fv s12); (0x10001CFE, fv s13); (0x140034CD, fv s14); (0x140034CE, fv s15); (0x1C001E20, fv s16); (0x14001C14, fv s18); (0x14001C15, fv s19); (0x08001D13, fv s20); (0x24001C1F, frefs (im_iframe d))] (ftags (im_note_tags d)) None).
  enough_good.
  { node_good Hid. eexists; exists (length (im_note_tags d)). refine (conj _ (conj _ _)).
    -
    eapply fg_cons; [exact (fg_fv _ _ H1)|].
    eapply fg_cons; [apply fg_ref; intros r Er; unfold if_any in H2; rewrite ?Er in H2; try (injection Er as <-); exact H2|].
    eapply fg_cons; [exact (fg_fv _ _ H3)|].
    eapply fg_cons; [exact (fg_fv _ _ H4)|].
    eapply fg_cons; [exact (fg_fv _ _ H5)|].
    eapply fg_cons; [exact (fg_fv _ _ H6)|].
    eapply fg_cons; [exact (fg_fv _ _ H7)|].
    eapply fg_cons; [exact (fg_fv _ _ H8)|].
    eapply fg_cons; [exact (fg_fv _ _ H9)|].
    eapply fg_cons; [exact (fg_fv _ _ H10)|].
    eapply fg_cons; [exact (fg_fv _ _ H11)|].
    eapply fg_cons; [exact (fg_fv _ _ H12)|].
    eapply fg_cons; [exact (fg_fv _ _ H13)|].
    eapply fg_cons; [exact (fg_fv _ _ H14)|].
    eapply fg_cons; [exact (fg_fv _ _ H15)|].
    eapply fg_cons; [exact (fg_fv _ _ H16)|].
    eapply fg_cons; [exact (fg_fv _ _ H18)|].
    eapply fg_cons; [exact (fg_fv _ _ H19)|].
    eapply fg_cons; [exact (fg_fv _ _ H20)|].
    eapply fg_cons; [refine (fg_refs _ H21 _); lia|].
    apply fg_nil.
    - refine (lg_tags _ H17 _); lia.
    - lia. }
  intros o O. node_read O W M.
  split; [exact (kind_is _ _ o O)|].
  split; [eapply (r_optional _ o W M); [reflexivity|reflexivity|exact H1]|].
  split; [eapply (r_reference _ _ o W O); [reflexivity|reflexivity]|].
  split; [eapply (r_optional _ o W M); [reflexivity|reflexivity|exact H3]|].
  split; [eapply (r_optional _ o W M); [reflexivity|reflexivity|exact H4]|].
  split; [eapply (r_defaulted _ o W M); [reflexivity|reflexivity|exact H5]|].
  split; [eapply (r_optional _ o W M); [reflexivity|reflexivity|exact H6]|].
  split; [eapply (r_optional _ o W M); [reflexivity|reflexivity|exact H7]|].
  split; [eapply (r_defaulted _ o W M); [reflexivity|reflexivity|exact H8]|].
  split; [eapply (r_defaulted _ o W M); [reflexivity|reflexivity|exact H9]|].
  split; [eapply (r_optional _ o W M); [reflexivity|reflexivity|exact H10]|].
  split; [eapply (r_optional _ o W M); [reflexivity|reflexivity|exact H11]|].
  split; [eapply (r_optional _ o W M); [reflexivity|reflexivity|exact H12]|].
  split; [eapply (r_optional _ o W M); [reflexivity|reflexivity|exact H13]|].
  split; [eapply (r_optional _ o W M); [reflexivity|reflexivity|exact H14]|].
  split; [eapply (r_optional _ o W M); [reflexivity|reflexivity|exact H15]|].
  split; [eapply (r_optional _ o W M); [reflexivity|reflexivity|exact H16]|].
  split; [eapply (r_tags _ _ o W O); [reflexivity|reflexivity]|].
  split; [eapply (r_optional _ o W M); [reflexivity|reflexivity|exact H18]|].
  split; [eapply (r_optional _ o W M); [reflexivity|reflexivity|exact H19]|].
  split; [eapply (r_defaulted _ o W M); [reflexivity|reflexivity|exact H20]|].
  eapply (r_children _ _ o W O); [reflexivity|reflexivity].
Qed.

Lemma w_stroke cell id d : id_fits id ->
  has (req_rel path (ss_path d)) ->
  has (req_rel (SpecNodes.entry VU8 bias_table) (ss_bias d)) ->
  has (opt_rel dword (ss_language_code d)) ->
  if_any id_fits (Some (ss_properties d)) ->
  written cell id (fun o => stroke_node o d).
Proof.
  intros Hid (s1 & H1) (s2 & H2) (s3 & H3) H4.
  exists (AObject id 0x00020047 [(0x1C00340B, fv s1); (0x0C00341C, fv s2); (0x14001C3B, fv s3); (0x20003409, fref (Some (ss_properties d)))] None None).
  enough_good.
  { node_good Hid. eexists; exists (0%nat). refine (conj _ (conj _ _)).
    -
    eapply fg_cons; [exact (fg_fv _ _ H1)|].
    eapply fg_cons; [exact (fg_fv _ _ H2)|].
    eapply fg_cons; [exact (fg_fv _ _ H3)|].
    eapply fg_cons; [apply fg_ref; intros r Er; unfold if_any in H4; rewrite ?Er in H4; try (injection Er as <-); exact H4|].
    apply fg_nil.
    - exact I.
    - lia. }
  intros o O. node_read O W M.
  split; [exact (kind_is _ _ o O)|].
  split; [eapply (r_required _ o W M); [reflexivity|reflexivity|exact H1]|].
  split; [eapply (r_required _ o W M); [reflexivity|reflexivity|exact H2]|].
  split; [eapply (r_optional _ o W M); [reflexivity|reflexivity|exact H3]|].
  eapply (r_reference _ _ o W O); [reflexivity|reflexivity].
Qed.

Lemma w_stroke_properties cell id d : id_fits id ->
  has (def_rel boolean false (sp_aliased d)) ->
  has (def_rel boolean false (sp_fit_to_curve d)) ->
  has (def_rel boolean false (sp_ignore_pressure d)) ->
  has (opt_rel byte (sp_pen_tip d)) ->
  has (opt_rel byte (sp_raster_operation d)) ->
  has (opt_rel byte (sp_transparency d)) ->
  has (req_rel float (sp_height d)) ->
  has (req_rel float (sp_width d)) ->
  has (opt_rel dword (sp_color d)) ->
  has (def_rel dimension_table [] (sp_dimensions d)) ->
  written cell id (fun o => stroke_properties o d).
Proof.
  intros Hid (s1 & H1) (s2 & H2) (s3 & H3) (s4 & H4) (s5 & H5) (s6 & H6) (s7 & H7) (s8 & H8) (s9 & H9) (s10 & H10).
  exists (AObject id 0x00120048 [(0x8000340E, fv s1); (0x80003410, fv s2); (0x08003411, fv s3); (0x0C003412, fv s4); (0x0C003413, fv s5); (0x0C003414, fv s6); (0x1400340D, fv s7); (0x1400340C, fv s8); (0x1400340F, fv s9); (0x1C00340A, fv s10)] None None).
  enough_good.
  { node_good Hid. eexists; exists (0%nat). refine (conj _ (conj _ _)).
    -
    eapply fg_cons; [exact (fg_fv _ _ H1)|].
    eapply fg_cons; [exact (fg_fv _ _ H2)|].
    eapply fg_cons; [exact (fg_fv _ _ H3)|].
    eapply fg_cons; [exact (fg_fv _ _ H4)|].
    eapply fg_cons; [exact (fg_fv _ _ H5)|].
    eapply fg_cons; [exact (fg_fv _ _ H6)|].
    eapply fg_cons; [exact (fg_fv _ _ H7)|].
    eapply fg_cons; [exact (fg_fv _ _ H8)|].
    eapply fg_cons; [exact (fg_fv _ _ H9)|].
    eapply fg_cons; [exact (fg_fv _ _ H10)|].
    apply fg_nil.
    - exact I.
    - lia. }
  intros o O. node_read O W M.
  split; [exact (kind_is _ _ o O)|].
  split; [eapply (r_defaulted _ o W M); [reflexivity|reflexivity|exact H1]|].
  split; [eapply (r_defaulted _ o W M); [reflexivity|reflexivity|exact H2]|].
  split; [eapply (r_defaulted _ o W M); [reflexivity|reflexivity|exact H3]|].
  split; [eapply (r_optional _ o W M); [reflexivity|reflexivity|exact H4]|].
  split; [eapply (r_optional _ o W M); [reflexivity|reflexivity|exact H5]|].
  split; [eapply (r_optional _ o W M); [reflexivity|reflexivity|exact H6]|].
  split; [eapply (r_required _ o W M); [reflexivity|reflexivity|exact H7]|].
  split; [eapply (r_required _ o W M); [reflexivity|reflexivity|exact H8]|].
  split; [eapply (r_optional _ o W M); [reflexivity|reflexivity|exact H9]|].
  eapply (r_defaulted _ o W M); [reflexivity|reflexivity|exact H10].
Qed.

Lemma w_tag_definition cell id d : id_fits id ->
  has (req_rel text (td_label d)) ->
  has (req_rel tag_status_bits (td_status d)) ->
  has (req_rel (SpecNodes.entry VU16 (coded shape_list)) (td_shape d)) ->
  has (opt_rel colorref (td_highlight_color d)) ->
  has (opt_rel colorref (td_text_color d)) ->
  has (req_rel item_type (td_action_item_type d)) ->
  written cell id (fun o => tag_definition_object o d).
Proof.
  intros Hid (s1 & H1) (s2 & H2) (s3 & H3) (s4 & H4) (s5 & H5) (s6 & H6).
  exists (AObject id 0x00120043 [(0x1C003468, fv s1); (0x14003467, fv s2); (0x10003464, fv s3); (0x14003465, fv s4); (0x14003466, fv s5); (0x10003463, fv s6)] None None).
  enough_good.
  { node_good Hid. eexists; exists (0%nat). refine (conj _ (conj _ _)).
    -
    eapply fg_cons; [exact (fg_fv _ _ H1)|].
    eapply fg_cons; [exact (fg_fv _ _ H2)|].
    eapply fg_cons; [exact (fg_fv _ _ H3)|].
    eapply fg_cons; [exact (fg_fv _ _ H4)|].
    eapply fg_cons; [exact (fg_fv _ _ H5)|].
    eapply fg_cons; [exact (fg_fv _ _ H6)|].
    apply fg_nil.
    - exact I.
    - lia. }
  intros o O. node_read O W M.
  split; [exact (kind_is _ _ o O)|].
  split; [eapply (r_required _ o W M); [reflexivity|reflexivity|exact H1]|].
  split; [eapply (r_required _ o W M); [reflexivity|reflexivity|exact H2]|].
  split; [eapply (r_required _ o W M); [reflexivity|reflexivity|exact H3]|].
  split; [eapply (r_optional _ o W M); [reflexivity|reflexivity|exact H4]|].
  split; [eapply (r_optional _ o W M); [reflexivity|reflexivity|exact H5]|].
  eapply (r_required _ o W M); [reflexivity|reflexivity|exact H6].
Qed.

Lemma w_list_info cell id d : id_fits id ->
  has (req_rel dword (nl_last_modified d)) ->
  has (opt_rel text (nl_list_font d)) ->
  has (opt_rel signed (nl_list_restart d)) ->
  has (req_rel numbering (nl_list_format d)) ->
  has (def_rel boolean false (nl_bold d)) ->
  has (def_rel boolean false (nl_italic d)) ->
  has (opt_rel dword (nl_language_code d)) ->
  has (opt_rel text (nl_font d)) ->
  has (opt_rel word (nl_font_size d)) ->
  has (opt_rel colorref (nl_font_color d)) ->
  written cell id (fun o => list_object o d).
Proof.
  intros Hid (s1 & H1) (s2 & H2) (s3 & H3) (s4 & H4) (s5 & H5) (s6 & H6) (s7 & H7) (s8 & H8) (s9 & H9) (s10 & H10).
  exists (AObject id 0x00060012 [(0x14001D7A, fv s1); (0x1C001C52, fv s2); (0x14001CB7, fv s3); (0x1C001C1A, fv s4); (0x08001C04, fv s5); (0x08001C05, fv s6); (0x14001C3B, fv s7); (0x1C001C0A, fv s8); (0x10001C0B, fv s9); (0x14001C0C, fv s10)] None None).
  enough_good.
  { node_good Hid. eexists; exists (0%nat). refine (conj _ (conj _ _)).
    -
    eapply fg_cons; [exact (fg_fv _ _ H1)|].
    eapply fg_cons; [exact (fg_fv _ _ H2)|].
    eapply fg_cons; [exact (fg_fv _ _ H3)|].
    eapply fg_cons; [exact (fg_fv _ _ H4)|].
    eapply fg_cons; [exact (fg_fv _ _ H5)|].
    eapply fg_cons; [exact (fg_fv _ _ H6)|].
    eapply fg_cons; [exact (fg_fv _ _ H7)|].
    eapply fg_cons; [exact (fg_fv _ _ H8)|].
    eapply fg_cons; [exact (fg_fv _ _ H9)|].
    eapply fg_cons; [exact (fg_fv _ _ H10)|].
    apply fg_nil.
    - exact I.
    - lia. }
  intros o O. node_read O W M.
  split; [exact (kind_is _ _ o O)|].
  split; [eapply (r_required _ o W M); [reflexivity|reflexivity|exact H1]|].
  split; [eapply (r_optional _ o W M); [reflexivity|reflexivity|exact H2]|].
  split; [eapply (r_optional _ o W M); [reflexivity|reflexivity|exact H3]|].
  split; [eapply (r_required _ o W M); [reflexivity|reflexivity|exact H4]|].
  split; [eapply (r_defaulted _ o W M); [reflexivity|reflexivity|exact H5]|].
  split; [eapply (r_defaulted _ o W M); [reflexivity|reflexivity|exact H6]|].
  split; [eapply (r_optional _ o W M); [reflexivity|reflexivity|exact H7]|].
  split; [eapply (r_optional _ o W M); [reflexivity|reflexivity|exact H8]|].
  split; [eapply (r_optional _ o W M); [reflexivity|reflexivity|exact H9]|].
  eapply (r_optional _ o W M); [reflexivity|reflexivity|exact H10].
Qed.

Lemma w_style cell id d : id_fits id ->
  has (opt_rel (SpecNodes.entry VU8 charset_table) (sy_charset d)) ->
  has (def_rel boolean false (sy_bold d)) ->
  has (def_rel boolean false (sy_italic d)) ->
  has (def_rel boolean false (sy_underline d)) ->
  has (def_rel boolean false (sy_strikethrough d)) ->
  has (def_rel boolean false (sy_superscript d)) ->
  has (def_rel boolean false (sy_subscript d)) ->
  has (opt_rel text (sy_font d)) ->
  has (opt_rel word (sy_font_size d)) ->
  has (opt_rel colorref (sy_font_color d)) ->
  has (opt_rel colorref (sy_highlight d)) ->
  has (opt_rel text (sy_next_style d)) ->
  has (opt_rel text (sy_style_id d)) ->
  has (opt_rel paragraph_align (sy_paragraph_alignment d)) ->
  has (opt_rel float (sy_space_before d)) ->
  has (opt_rel float (sy_space_after d)) ->
  has (opt_rel float (sy_line_spacing_exact d)) ->
  has (opt_rel dword (sy_language_code d)) ->
  has (def_rel boolean false (sy_math_formatting d)) ->
  has (def_rel boolean false (sy_hyperlink d)) ->
  has (def_rel boolean false (sy_hyperlink_protected d)) ->
  has (def_rel boolean false (sy_hidden d)) ->
  has (def_rel boolean false (sy_is_embedded_object d)) ->
  has (opt_rel dword (sy_object_type d)) ->
  written cell id (fun o => style_object o d).
Proof.
  intros Hid (s1 & H1) (s2 & H2) (s3 & H3) (s4 & H4) (s5 & H5) (s6 & H6) (s7 & H7) (s8 & H8) (s9 & H9) (s10 & H10) (s11 & H11) (s12 & H12) (s13 & H13) (s14 & H14) (s15 & H15) (s16 & H16) (s17 & H17) (s18 & H18) (s19 & H19) (s20 & H20) (s21 & H21) (s22 & H22) (s23 & H23) (s24 & H24).
  exists (AObject id 0x0012004D [(0x0C001D01, fv s1); (0x08001C04, fv s2); (0x08001C05, fv s3); (0x08001C06, fv s4); (0x08001C07, fv s5); (0x08001C08, fv s6); (0x08001C09, fv s7); (0x1C001C0A, fv s8); (0x10001C0B, fv s9); (0x14001C0C, fv s10); (0x14001C0D, fv s11); (0x1C00348A, fv s12); (0x1C00345A, fv s13); (0x0C003477, fv s14); (0x1400342E, fv s15); (0x1400342F, fv s16); (0x14003430, fv s17); (0x14001C3B, fv s18); (0x08003401, fv s19); (0x08001E14, fv s20); (0x08001E19, fv s21); (0x08001E16, fv s22); (0x08001E22, fv s23); (0x14003457, fv s24)] None None).
  enough_good.
  { node_good Hid. eexists; exists (0%nat). refine (conj _ (conj _ _)).
    -
    eapply fg_cons; [exact (fg_fv _ _ H1)|].
    eapply fg_cons; [exact (fg_fv _ _ H2)|].
    eapply fg_cons; [exact (fg_fv _ _ H3)|].
    eapply fg_cons; [exact (fg_fv _ _ H4)|].
    eapply fg_cons; [exact (fg_fv _ _ H5)|].
    eapply fg_cons; [exact (fg_fv _ _ H6)|].
    eapply fg_cons; [exact (fg_fv _ _ H7)|].
    eapply fg_cons; [exact (fg_fv _ _ H8)|].
    eapply fg_cons; [exact (fg_fv _ _ H9)|].
    eapply fg_cons; [exact (fg_fv _ _ H10)|].
    eapply fg_cons; [exact (fg_fv _ _ H11)|].
    eapply fg_cons; [exact (fg_fv _ _ H12)|].
    eapply fg_cons; [exact (fg_fv _ _ H13)|].
    eapply fg_cons; [exact (fg_fv _ _ H14)|].
    eapply fg_cons; [exact (fg_fv _ _ H15)|].
    eapply fg_cons; [exact (fg_fv _ _ H16)|].
    eapply fg_cons; [exact (fg_fv _ _ H17)|].
    eapply fg_cons; [exact (fg_fv _ _ H18)|].
    eapply fg_cons; [exact (fg_fv _ _ H19)|].
    eapply fg_cons; [exact (fg_fv _ _ H20)|].
    eapply fg_cons; [exact (fg_fv _ _ H21)|].
    eapply fg_cons; [exact (fg_fv _ _ H22)|].
    eapply fg_cons; [exact (fg_fv _ _ H23)|].
    eapply fg_cons; [exact (fg_fv _ _ H24)|].
    apply fg_nil.
    - exact I.
    - lia. }
  intros o O. node_read O W M.
  split; [exact (kind_is _ _ o O)|].
  split; [eapply (r_optional _ o W M); [reflexivity|reflexivity|exact H1]|].
  split; [eapply (r_defaulted _ o W M); [reflexivity|reflexivity|exact H2]|].
  split; [eapply (r_defaulted _ o W M); [reflexivity|reflexivity|exact H3]|].
  split; [eapply (r_defaulted _ o W M); [reflexivity|reflexivity|exact H4]|].
  split; [eapply (r_defaulted _ o W M); [reflexivity|reflexivity|exact H5]|].
  split; [eapply (r_defaulted _ o W M); [reflexivity|reflexivity|exact H6]|].
  split; [eapply (r_defaulted _ o W M); [reflexivity|reflexivity|exact H7]|].
  split; [eapply (r_optional _ o W M); [reflexivity|reflexivity|exact H8]|].
  split; [eapply (r_optional _ o W M); [reflexivity|reflexivity|exact H9]|].
  split; [eapply (r_optional _ o W M); [reflexivity|reflexivity|exact H10]|].
  split; [eapply (r_optional _ o W M); [reflexivity|reflexivity|exact H11]|].
  split; [eapply (r_optional _ o W M); [reflexivity|reflexivity|exact H12]|].
  split; [eapply (r_optional _ o W M); [reflexivity|reflexivity|exact H13]|].
  split; [eapply (r_optional _ o W M); [reflexivity|reflexivity|exact H14]|].
  split; [eapply (r_optional _ o W M); [reflexivity|reflexivity|exact H15]|].
  split; [eapply (r_optional _ o W M); [reflexivity|reflexivity|exact H16]|].
  split; [eapply (r_optional _ o W M); [reflexivity|reflexivity|exact H17]|].
  split; [eapply (r_optional _ o W M); [reflexivity|reflexivity|exact H18]|].
  split; [eapply (r_defaulted _ o W M); [reflexivity|reflexivity|exact H19]|].
  split; [eapply (r_defaulted _ o W M); [reflexivity|reflexivity|exact H20]|].
  split; [eapply (r_defaulted _ o W M); [reflexivity|reflexivity|exact H21]|].
  split; [eapply (r_defaulted _ o W M); [reflexivity|reflexivity|exact H22]|].
  split; [eapply (r_defaulted _ o W M); [reflexivity|reflexivity|exact H23]|].
  eapply (r_optional _ o W M); [reflexivity|reflexivity|exact H24].
Qed.

Lemma w_element cell id d : id_fits id ->
  has (req_rel dword (oe_created_at d)) ->
  has (req_rel dword (oe_last_modified d)) ->
  ids_ok (oe_children d) ->
  has (req_rel byte (oe_child_level d)) ->
  ids_ok (oe_contents d) ->
  ids_ok (oe_list_contents d) ->
  has (opt_rel float (oe_list_spacing d)) ->
  if_any id_fits (Some (oe_author_original d)) ->
  if_any id_fits (Some (oe_author_most_recent d)) ->
  has (def_rel boolean false (oe_rtl d)) ->
  has (def_rel boolean false (oe_is_deletable d)) ->
  has (def_rel inverted false (oe_is_selectable d)) ->
  has (def_rel boolean false (oe_is_title_text d)) ->
  written cell id (fun o => element_object o d).
Proof.
  intros Hid (s1 & H1) (s2 & H2) (H3 & L3) (s4 & H4) (H5 & L5) (H6 & L6) (s7 & H7) H8 H9 (s10 & H10) (s11 & H11) (s12 & H12) (s13 & H13).
  exists (AObject id 0x0006000D [(0x14001D09, fv s1); (0x14001D7A, fv s2); (0x24001C20, frefs (oe_children d)); (0x0C001C03, fv s4); (0x24001C1F, frefs (oe_contents d)); (0x24001C26, frefs (oe_list_contents d)); (0x14001CCB, fv s7); (0x20001D78, fref (Some (oe_author_original d))); (0x20001D79, fref (Some (oe_author_most_recent d))); (0x08001C34, fv s10); (0x08001D0C, fv s11); (0x08001CB2, fv s12); (0x08001CB4, fv s13)] None None).
  enough_good.
  { node_good Hid. eexists; exists (0%nat). refine (conj _ (conj _ _)).
    -
    eapply fg_cons; [exact (fg_fv _ _ H1)|].
    eapply fg_cons; [exact (fg_fv _ _ H2)|].
    eapply fg_cons; [refine (fg_refs _ H3 _); lia|].
    eapply fg_cons; [exact (fg_fv _ _ H4)|].
    eapply fg_cons; [refine (fg_refs _ H5 _); lia|].
    eapply fg_cons; [refine (fg_refs _ H6 _); lia|].
    eapply fg_cons; [exact (fg_fv _ _ H7)|].
    eapply fg_cons; [apply fg_ref; intros r Er; unfold if_any in H8; rewrite ?Er in H8; try (injection Er as <-); exact H8|].
    eapply fg_cons; [apply fg_ref; intros r Er; unfold if_any in H9; rewrite ?Er in H9; try (injection Er as <-); exact H9|].
    eapply fg_cons; [exact (fg_fv _ _ H10)|].
    eapply fg_cons; [exact (fg_fv _ _ H11)|].
    eapply fg_cons; [exact (fg_fv _ _ H12)|].
    eapply fg_cons; [exact (fg_fv _ _ H13)|].
    apply fg_nil.
    - exact I.
    - lia. }
  intros o O. node_read O W M.
  split; [exact (kind_is _ _ o O)|].
  split; [eapply (r_required _ o W M); [reflexivity|reflexivity|exact H1]|].
  split; [eapply (r_required _ o W M); [reflexivity|reflexivity|exact H2]|].
  split; [eapply (r_children _ _ o W O); [reflexivity|reflexivity]|].
  split; [eapply (r_required _ o W M); [reflexivity|reflexivity|exact H4]|].
  split; [eapply (r_children _ _ o W O); [reflexivity|reflexivity]|].
  split; [eapply (r_children _ _ o W O); [reflexivity|reflexivity]|].
  split; [eapply (r_optional _ o W M); [reflexivity|reflexivity|exact H7]|].
  split; [eapply (r_reference _ _ o W O); [reflexivity|reflexivity]|].
  split; [eapply (r_reference _ _ o W O); [reflexivity|reflexivity]|].
  split; [eapply (r_defaulted _ o W M); [reflexivity|reflexivity|exact H10]|].
  split; [eapply (r_defaulted _ o W M); [reflexivity|reflexivity|exact H11]|].
  split; [eapply (r_defaulted _ o W M); [reflexivity|reflexivity|exact H12]|].
  eapply (r_defaulted _ o W M); [reflexivity|reflexivity|exact H13].
Qed.

Lemma w_group cell id d : id_fits id ->
  has (req_rel dword (gr_last_modified d)) ->
  ids_ok (gr_children d) ->
  has (req_rel byte (gr_child_level d)) ->
  written cell id (fun o => group_object o d).
Proof.
  intros Hid (s1 & H1) (H2 & L2) (s3 & H3).
  exists (AObject id 0x00060019 [(0x14001D7A, fv s1); (0x24001C20, frefs (gr_children d)); (0x0C001C03, fv s3)] None None).
  enough_good.
  { node_good Hid. eexists; exists (0%nat). refine (conj _ (conj _ _)).
    -
    eapply fg_cons; [exact (fg_fv _ _ H1)|].
    eapply fg_cons; [refine (fg_refs _ H2 _); lia|].
    eapply fg_cons; [exact (fg_fv _ _ H3)|].
    apply fg_nil.
    - exact I.
    - lia. }
  intros o O. node_read O W M.
  split; [exact (kind_is _ _ o O)|].
  split; [eapply (r_required _ o W M); [reflexivity|reflexivity|exact H1]|].
  split; [eapply (r_children _ _ o W O); [reflexivity|reflexivity]|].
  eapply (r_required _ o W M); [reflexivity|reflexivity|exact H3].
Qed.

Lemma w_outline cell id d : id_fits id ->
  has (req_rel dword (ou_last_modified d)) ->
  ids_ok (ou_children d) ->
  has (req_rel byte (ou_child_level d)) ->
  has (opt_rel float (ou_layout_max_height d)) ->
  has (opt_rel float (ou_layout_max_width d)) ->
  has (opt_rel float (ou_layout_reserved_width d)) ->
  has (opt_rel float (ou_layout_minimum_outline_width d)) ->
  has (def_rel boolean false (ou_layout_tight_alignment d)) ->
  has (def_rel boolean false (ou_is_layout_size_set_by_user d)) ->
  has (opt_rel float (ou_offset_horiz d)) ->
  has (opt_rel float (ou_offset_vert d)) ->
  has (opt_rel float (ou_list_spacing d)) ->
  has (req_rel indents (ou_indent_distance d)) ->
  has (def_rel alignment None (ou_alignment_in_parent d)) ->
  has (def_rel alignment None (ou_alignment_self d)) ->
  has (def_rel boolean false (ou_is_deletable d)) ->
  has (def_rel boolean false (ou_is_title_date d)) ->
  has (def_rel inverted true (ou_is_selectable d)) ->
  has (def_rel boolean false (ou_is_title_text d)) ->
  has (def_rel boolean false (ou_is_read_only d)) ->
  has (def_rel boolean false (ou_descendants_cannot_be_moved d)) ->
  has (def_rel boolean false (ou_tight_layout d)) ->
  written cell id (fun o => outline_object o d).
Proof.
  intros Hid (s1 & H1) (H2 & L2) (s3 & H3) (s4 & H4) (s5 & H5) (s6 & H6) (s7 & H7) (s8 & H8) (s9 & H9) (s10 & H10) (s11 & H11) (s12 & H12) (s13 & H13) (s14 & H14) (s15 & H15) (s16 & H16) (s17 & H17) (s18 & H18) (s19 & H19) (s20 & H20) (s21 & H21) (s22 & H22).
  exists (AObject id 0x0006000C [(0x14001D7A, fv s1); (0x24001C20, frefs (ou_children d)); (0x0C001C03, fv s3); (0x14001C1C, fv s4); (0x14001C1B, fv s5); (0x14001CDB, fv s6); (0x14001CEC, fv s7); (0x08001CFF, fv s8); (0x08001CBD, fv s9); (0x14001C14, fv s10); (0x14001C15, fv s11); (0x14001CCB, fv s12); (0x1C001C12, fv s13); (0x14001C3E, fv s14); (0x14001C84, fv s15); (0x08001D0C, fv s16); (0x08001CB5, fv s17); (0x08001CB2, fv s18); (0x08001CB4, fv s19); (0x08001CDE, fv s20); (0x08001CF9, fv s21); (0x08001C00, fv s22)] None None).
  enough_good.
  { node_good Hid. eexists; exists (0%nat). refine (conj _ (conj _ _)).
    -
    eapply fg_cons; [exact (fg_fv _ _ H1)|].
    eapply fg_cons; [refine (fg_refs _ H2 _); lia|].
    eapply fg_cons; [exact (fg_fv _ _ H3)|].
    eapply fg_cons; [exact (fg_fv _ _ H4)|].
    eapply fg_cons; [exact (fg_fv _ _ H5)|].
    eapply fg_cons; [exact (fg_fv _ _ H6)|].
    eapply fg_cons; [exact (fg_fv _ _ H7)|].
    eapply fg_cons; [exact (fg_fv _ _ H8)|].
    eapply fg_cons; [exact (fg_fv _ _ H9)|].
    eapply fg_cons; [exact (fg_fv _ _ H10)|].
    eapply fg_cons; [exact (fg_fv _ _ H11)|].
    eapply fg_cons; [exact (fg_fv _ _ H12)|].
    eapply fg_cons; [exact (fg_fv _ _ H13)|].
    eapply fg_cons; [exact (fg_fv _ _ H14)|].
    eapply fg_cons; [exact (fg_fv _ _ H15)|].
    eapply fg_cons; [exact (fg_fv _ _ H16)|].
    eapply fg_cons; [exact (fg_fv _ _ H17)|].
    eapply fg_cons; [exact (fg_fv _ _ H18)|].
    eapply fg_cons; [exact (fg_fv _ _ H19)|].
    eapply fg_cons; [exact (fg_fv _ _ H20)|].
    eapply fg_cons; [exact (fg_fv _ _ H21)|].
    eapply fg_cons; [exact (fg_fv _ _ H22)|].
    apply fg_nil.
    - exact I.
    - lia. }
  intros o O. node_read O W M.
  split; [exact (kind_is _ _ o O)|].
  split; [eapply (r_required _ o W M); [reflexivity|reflexivity|exact H1]|].
  split; [eapply (r_children _ _ o W O); [reflexivity|reflexivity]|].
  split; [eapply (r_required _ o W M); [reflexivity|reflexivity|exact H3]|].
  split; [eapply (r_optional _ o W M); [reflexivity|reflexivity|exact H4]|].
  split; [eapply (r_optional _ o W M); [reflexivity|reflexivity|exact H5]|].
  split; [eapply (r_optional _ o W M); [reflexivity|reflexivity|exact H6]|].
  split; [eapply (r_optional _ o W M); [reflexivity|reflexivity|exact H7]|].
  split; [eapply (r_defaulted _ o W M); [reflexivity|reflexivity|exact H8]|].
  split; [eapply (r_defaulted _ o W M); [reflexivity|reflexivity|exact H9]|].
  split; [eapply (r_optional _ o W M); [reflexivity|reflexivity|exact H10]|].
  split; [eapply (r_optional _ o W M); [reflexivity|reflexivity|exact H11]|].
  split; [eapply (r_optional _ o W M); [reflexivity|reflexivity|exact H12]|].
  split; [eapply (r_required _ o W M); [reflexivity|reflexivity|exact H13]|].
  split; [eapply (r_defaulted _ o W M); [reflexivity|reflexivity|exact H14]|].
  split; [eapply (r_defaulted _ o W M); [reflexivity|reflexivity|exact H15]|].
  split; [eapply (r_defaulted _ o W M); [reflexivity|reflexivity|exact H16]|].
  split; [eapply (r_defaulted _ o W M); [reflexivity|reflexivity|exact H17]|].
  split; [eapply (r_defaulted _ o W M); [reflexivity|reflexivity|exact H18]|].
  split; [eapply (r_defaulted _ o W M); [reflexivity|reflexivity|exact H19]|].
  split; [eapply (r_defaulted _ o W M); [reflexivity|reflexivity|exact H20]|].
  split; [eapply (r_defaulted _ o W M); [reflexivity|reflexivity|exact H21]|].
  eapply (r_defaulted _ o W M); [reflexivity|reflexivity|exact H22].
Qed.

Lemma w_cell cell id d : id_fits id ->
  has (opt_rel dword (ce_last_modified d)) ->
  ids_ok (ce_contents d) ->
  has (opt_rel float (ce_layout_max_width d)) ->
  has (req_rel indents (ce_indent_distance d)) ->
  has (opt_rel argb (ce_background_color d)) ->
  written cell id (fun o => cell_object o d).
Proof.
  intros Hid (s1 & H1) (H2 & L2) (s3 & H3) (s4 & H4) (s5 & H5).
  exists (AObject id 0x00060024 [(0x14001D7A, fv s1); (0x24001C20, frefs (ce_contents d)); (0x14001C1B, fv s3); (0x1C001C12, fv s4); (0x14001E26, fv s5)] None None).
  enough_good.
  { node_good Hid. eexists; exists (0%nat). refine (conj _ (conj _ _)).
    -
    eapply fg_cons; [exact (fg_fv _ _ H1)|].
    eapply fg_cons; [refine (fg_refs _ H2 _); lia|].
    eapply fg_cons; [exact (fg_fv _ _ H3)|].
    eapply fg_cons; [exact (fg_fv _ _ H4)|].
    eapply fg_cons; [exact (fg_fv _ _ H5)|].
    apply fg_nil.
    - exact I.
    - lia. }
  intros o O. node_read O W M.
  split; [exact (kind_is _ _ o O)|].
  split; [eapply (r_optional _ o W M); [reflexivity|reflexivity|exact H1]|].
  split; [eapply (r_references _ _ o W O); [reflexivity|reflexivity]|].
  split; [eapply (r_optional _ o W M); [reflexivity|reflexivity|exact H3]|].
  split; [eapply (r_required _ o W M); [reflexivity|reflexivity|exact H4]|].
  eapply (r_optional _ o W M); [reflexivity|reflexivity|exact H5].
Qed.

Lemma w_table cell id d : id_fits id ->
  has (req_rel dword (ta_last_modified d)) ->
  ids_ok (ta_rows d) ->
  has (req_rel dword (ta_row_count d)) ->
  has (req_rel dword (ta_col_count d)) ->
  has (def_rel column_flags [] (ta_cols_locked d)) ->
  has (def_rel column_widths [] (ta_col_widths d)) ->
  has (def_rel boolean true (ta_borders_visible d)) ->
  has (def_rel alignment None (ta_alignment_in_parent d)) ->
  has (def_rel alignment None (ta_alignment_self d)) ->
  tags_ok (ta_note_tags d) ->
  written cell id (fun o => table_object o d).
Proof.
  intros Hid (s1 & H1) (H2 & L2) (s3 & H3) (s4 & H4) (s5 & H5) (s6 & H6) (s7 & H7) (s8 & H8) (s9 & H9) (H10 & L10).
  exists (AObject id 0x00060022 [(0x14001D7A, fv s1); (0x24001C20, frefs (ta_rows d)); (0x14001D57, fv s3); (0x14001D58, fv s4); (0x1C001D7D, fv s5); (0x1C001D66, fv s6); (0x08001D5E, fv s7); (0x14001C3E, fv s8); (0x14001C84, fv s9)] (ftags (ta_note_tags d)) None).
  enough_good.
  { node_good Hid. eexists; exists (length (ta_note_tags d)). refine (conj _ (conj _ _)).
    -
    eapply fg_cons; [exact (fg_fv _ _ H1)|].
    eapply fg_cons; [refine (fg_refs _ H2 _); lia|].
    eapply fg_cons; [exact (fg_fv _ _ H3)|].
    eapply fg_cons; [exact (fg_fv _ _ H4)|].
    eapply fg_cons; [exact (fg_fv _ _ H5)|].
    eapply fg_cons; [exact (fg_fv _ _ H6)|].
    eapply fg_cons; [exact (fg_fv _ _ H7)|].
    eapply fg_cons; [exact (fg_fv _ _ H8)|].
    eapply fg_cons; [exact (fg_fv _ _ H9)|].
    apply fg_nil.
    - refine (lg_tags _ H10 _); lia.
    - lia. }
  intros o O. node_read O W M.
  split; [exact (kind_is _ _ o O)|].
  split; [eapply (r_required _ o W M); [reflexivity|reflexivity|exact H1]|].
  split; [eapply (r_references _ _ o W O); [reflexivity|reflexivity]|].
  split; [eapply (r_required _ o W M); [reflexivity|reflexivity|exact H3]|].
  split; [eapply (r_required _ o W M); [reflexivity|reflexivity|exact H4]|].
  split; [eapply (r_defaulted _ o W M); [reflexivity|reflexivity|exact H5]|].
  split; [eapply (r_defaulted _ o W M); [reflexivity|reflexivity|exact H6]|].
  split; [eapply (r_defaulted _ o W M); [reflexivity|reflexivity|exact H7]|].
  split; [eapply (r_defaulted _ o W M); [reflexivity|reflexivity|exact H8]|].
  split; [eapply (r_defaulted _ o W M); [reflexivity|reflexivity|exact H9]|].
  eapply (r_tags _ _ o W O); [reflexivity|reflexivity].
Qed.

Lemma w_row cell id d : id_fits id ->
  has (opt_rel dword (ro_last_modified d)) ->
  ids_ok (ro_cells d) ->
  written cell id (fun o => row_object o d).
Proof.
  intros Hid (s1 & H1) (H2 & L2).
  exists (AObject id 0x00060023 [(0x14001D7A, fv s1); (0x24001C20, frefs (ro_cells d))] None None).
  enough_good.
  { node_good Hid. eexists; exists (0%nat). refine (conj _ (conj _ _)).
    -
    eapply fg_cons; [exact (fg_fv _ _ H1)|].
    eapply fg_cons; [refine (fg_refs _ H2 _); lia|].
    apply fg_nil.
    - exact I.
    - lia. }
  intros o O. node_read O W M.
  split; [exact (kind_is _ _ o O)|].
  split; [eapply (r_optional _ o W M); [reflexivity|reflexivity|exact H1]|].
  eapply (r_references _ _ o W O); [reflexivity|reflexivity].
Qed.

Lemma w_page cell id d : id_fits id ->
  has (opt_rel dword (pd_last_modified d)) ->
  has (opt_rel text (pd_cached_title d)) ->
  has (opt_rel text (pd_author d)) ->
  ids_ok (pd_content d) ->
  if_any id_fits (pd_title d) ->
  has (def_rel boolean false (pd_orientation_portrait d)) ->
  has (opt_rel float (pd_page_width d)) ->
  has (opt_rel float (pd_page_height d)) ->
  has (opt_rel float (pd_margin_origin_x d)) ->
  has (opt_rel float (pd_margin_origin_y d)) ->
  has (opt_rel float (pd_margin_left d)) ->
  has (opt_rel float (pd_margin_right d)) ->
  has (opt_rel float (pd_margin_top d)) ->
  has (opt_rel float (pd_margin_bottom d)) ->
  has (def_rel (SpecNodes.entry VU8 page_size_table) PsAuto (pd_page_size d)) ->
  has (def_rel boolean false (pd_rtl d)) ->
  written cell id (fun o => page_object o d).
Proof.
  intros Hid (s1 & H1) (s2 & H2) (s3 & H3) (H4 & L4) H5 (s6 & H6) (s7 & H7) (s8 & H8) (s9 & H9) (s10 & H10) (s11 & H11) (s12 & H12) (s13 & H13) (s14 & H14) (s15 & H15) (s16 & H16).
  exists (AObject id 0x0006000B [(0x14001D7A, fv s1); (0x1C001D3C, fv s2); (0x1C001D75, fv s3); (0x24001C20, frefs (pd_content d)); (0x24001D5F, frefs (opt_list (pd_title d))); (0x08001C8E, fv s6); (0x14001C01, fv s7); (0x14001C02, fv s8); (0x14001D0F, fv s9); (0x14001D10, fv s10); (0x14001C4E, fv s11); (0x14001C4F, fv s12); (0x14001C4C, fv s13); (0x14001C4D, fv s14); (0x14001C8B, fv s15); (0x08001C92, fv s16)] None None).
  enough_good.
  { node_good Hid. eexists; exists (0%nat). refine (conj _ (conj _ _)).
    -
    eapply fg_cons; [exact (fg_fv _ _ H1)|].
    eapply fg_cons; [exact (fg_fv _ _ H2)|].
    eapply fg_cons; [exact (fg_fv _ _ H3)|].
    eapply fg_cons; [refine (fg_refs _ H4 _); lia|].
    eapply fg_cons; [refine (fg_refs _ (opt_list_fits _ H5) _); pose proof (opt_list_length (pd_title d)); lia|].
    eapply fg_cons; [exact (fg_fv _ _ H6)|].
    eapply fg_cons; [exact (fg_fv _ _ H7)|].
    eapply fg_cons; [exact (fg_fv _ _ H8)|].
    eapply fg_cons; [exact (fg_fv _ _ H9)|].
    eapply fg_cons; [exact (fg_fv _ _ H10)|].
    eapply fg_cons; [exact (fg_fv _ _ H11)|].
    eapply fg_cons; [exact (fg_fv _ _ H12)|].
    eapply fg_cons; [exact (fg_fv _ _ H13)|].
    eapply fg_cons; [exact (fg_fv _ _ H14)|].
    eapply fg_cons; [exact (fg_fv _ _ H15)|].
    eapply fg_cons; [exact (fg_fv _ _ H16)|].
    apply fg_nil.
    - exact I.
    - pose proof (opt_list_length (pd_title d)). lia. }
  intros o O. node_read O W M.
  split; [exact (kind_is _ _ o O)|].
  split; [eapply (r_optional _ o W M); [reflexivity|reflexivity|exact H1]|].
  split; [eapply (r_optional _ o W M); [reflexivity|reflexivity|exact H2]|].
  split; [eapply (r_optional _ o W M); [reflexivity|reflexivity|exact H3]|].
  split; [eapply (r_children _ _ o W O); [reflexivity|reflexivity]|].
  split; [exists (opt_list (pd_title d)); split; [eapply (r_children _ _ o W O); [reflexivity|reflexivity]|now destruct (pd_title d)]|].
  split; [eapply (r_defaulted _ o W M); [reflexivity|reflexivity|exact H6]|].
  split; [eapply (r_optional _ o W M); [reflexivity|reflexivity|exact H7]|].
  split; [eapply (r_optional _ o W M); [reflexivity|reflexivity|exact H8]|].
  split; [eapply (r_optional _ o W M); [reflexivity|reflexivity|exact H9]|].
  split; [eapply (r_optional _ o W M); [reflexivity|reflexivity|exact H10]|].
  split; [eapply (r_optional _ o W M); [reflexivity|reflexivity|exact H11]|].
  split; [eapply (r_optional _ o W M); [reflexivity|reflexivity|exact H12]|].
  split; [eapply (r_optional _ o W M); [reflexivity|reflexivity|exact H13]|].
  split; [eapply (r_optional _ o W M); [reflexivity|reflexivity|exact H14]|].
  split; [eapply (r_defaulted _ o W M); [reflexivity|reflexivity|exact H15]|].
  eapply (r_defaulted _ o W M); [reflexivity|reflexivity|exact H16].
Qed.

Lemma w_ink_container cell id d : id_fits id ->
  has (opt_rel float (ic_offset_horiz d)) ->
  has (opt_rel float (ic_offset_vert d)) ->
  has (opt_rel dword (ic_last_modified d)) ->
  if_any id_fits (ic_ink_data d) ->
  has (opt_rel float (ic_scaling_x d)) ->
  ic_scaling_y d = ic_scaling_x d ->
  written cell id (fun o => ink_container o d).
Proof.
  intros Hid (s1 & H1) (s2 & H2) (s3 & H3) H4 (s5 & H5) E6.
  exists (AObject id 0x00060014 [(0x14001C14, fv s1); (0x14001C15, fv s2); (0x14001D7A, fv s3); (0x20003415, fref (ic_ink_data d)); (0x14001C46, fv s5)] None None).
  enough_good.
  { node_good Hid. eexists; exists (0%nat). refine (conj _ (conj _ _)).
    -
    eapply fg_cons; [exact (fg_fv _ _ H1)|].
    eapply fg_cons; [exact (fg_fv _ _ H2)|].
    eapply fg_cons; [exact (fg_fv _ _ H3)|].
    eapply fg_cons; [apply fg_ref; intros r Er; unfold if_any in H4; rewrite ?Er in H4; try (injection Er as <-); exact H4|].
    eapply fg_cons; [exact (fg_fv _ _ H5)|].
    apply fg_nil.
    - exact I.
    - lia. }
  intros o O. node_read O W M.
  split; [exact (kind_is _ _ o O)|].
  split; [eapply (r_optional _ o W M); [reflexivity|reflexivity|exact H1]|].
  split; [eapply (r_optional _ o W M); [reflexivity|reflexivity|exact H2]|].
  split; [eapply (r_optional _ o W M); [reflexivity|reflexivity|exact H3]|].
  split; [eapply (r_reference _ _ o W O); [reflexivity|reflexivity]|].
  split; [eapply (r_optional _ o W M); [reflexivity|reflexivity|exact H5]|].
  rewrite E6; eapply (r_optional _ o W M); [reflexivity|reflexivity|exact H5].
Qed.

Lemma w_series cell id d : id_fits id ->
  has (req_rel uuid (pn_entity_guid d)) ->
  cells_ok cell (pn_page_spaces d) ->
  ids_ok (pn_page_metadata d) ->
  has (opt_rel qword (pn_created_at d)) ->
  written cell id (fun o => series_node o d).
Proof.
  intros Hid (s1 & H1) (H2 & K2 & L2) (H3 & L3) (s4 & H4).
  exists (AObject id 0x00060008 [(0x1C001C30, fv s1); (0x2C001D63, fspaces (pn_page_spaces d)); (0x24003442, frefs (pn_page_metadata d)); (0x18001C65, fv s4)] None None).
  enough_good.
  { node_good Hid. eexists; exists (0%nat). refine (conj _ (conj _ _)).
    -
    eapply fg_cons; [exact (fg_fv _ _ H1)|].
    eapply fg_cons; [refine (fg_spaces _ H2 _); lia|].
    eapply fg_cons; [refine (fg_refs _ H3 _); lia|].
    eapply fg_cons; [exact (fg_fv _ _ H4)|].
    apply fg_nil.
    - exact I.
    - lia. }
  intros o O. node_read O W M.
  split; [exact (kind_is _ _ o O)|].
  split; [eapply (r_required _ o W M); [reflexivity|reflexivity|exact H1]|].
  split; [eapply (r_spaces _ _ o W O); [reflexivity|reflexivity|]; destruct s1, s4; cbn [a cells_of ao_props ao_fields ao_last given given_last flat_map fst snd app fspaces frefs ap_cells fv option_map]; rewrite ?app_nil_r; exact K2|].
  split; [eapply (r_children _ _ o W O); [reflexivity|reflexivity]|].
  eapply (r_optional _ o W M); [reflexivity|reflexivity|exact H4].
Qed.

Lemma w_text cell id d runs : id_fits id ->
  has (req_rel dword (rt_last_modified d)) ->
  has (def_rel boolean false (rt_tight_layout d)) ->
  ids_ok (rt_run_formatting d) ->
  has (def_rel dwords [] (rt_run_indices d)) ->
  ids_ok (rt_run_data_object d) ->
  if_any id_fits (Some (rt_paragraph_style d)) ->
  has (def_rel float 0 (rt_space_before d)) ->
  has (def_rel float 0 (rt_space_after d)) ->
  has (opt_rel float (rt_line_spacing_exact d)) ->
  has (def_rel paragraph_align PaLeft (rt_paragraph_alignment d)) ->
  has_text (rt_text d) ->
  has (def_rel boolean false (rt_is_title_time d)) ->
  has (def_rel boolean false (rt_is_boiler_text d)) ->
  has (def_rel boolean false (rt_is_title_date d)) ->
  has (def_rel boolean false (rt_is_title_text d)) ->
  has (def_rel alignment None (rt_alignment_in_parent d)) ->
  has (def_rel alignment None (rt_alignment_self d)) ->
  has (opt_rel word (rt_language_code d)) ->
  has (def_rel boolean false (rt_rtl d)) ->
  tags_ok (rt_note_tags d) ->
  Forall run_good runs ->
  N.of_nat (length runs) < 2 ^ 21 ->
  written cell id (fun o => text_object o d /\ exists rs, run_data o rs /\ Forall2 is_run runs rs).
Proof.
  intros Hid (s1 & H1) (s2 & H2) (H3 & L3) (s4 & H4) (H5 & L5) H6 (s7 & H7) (s8 & H8) (s9 & H9) (s10 & H10) (sa & sb & Ha) (s12 & H12) (s13 & H13) (s14 & H14) (s15 & H15) (s16 & H16) (s17 & H17) (s18 & H18) (s19 & H19) (H20 & L20) R1 R2.
  exists (AObject id 0x0006000E [(0x14001D7A, fv s1); (0x08001C00, fv s2); (0x24001E13, frefs (rt_run_formatting d)); (0x1C001E12, fv s4); (0x24003458, frefs (rt_run_data_object d)); (0x2000342C, fref (Some (rt_paragraph_style d))); (0x1400342E, fv s7); (0x1400342F, fv s8); (0x14003430, fv s9); (0x0C003477, fv s10); (0x1C001C22, fv sa); (0x1C003498, fv sb); (0x08001C87, fv s12); (0x08001C88, fv s13); (0x08001CB5, fv s14); (0x08001CB4, fv s15); (0x14001C3E, fv s16); (0x14001C84, fv s17); (0x10001CFE, fv s18); (0x08003476, fv s19); (0x40003499, Some (AProp (fruns runs) [] []))] (ftags (rt_note_tags d)) None).
  enough_good.
  { node_good Hid. eexists; exists (length (rt_note_tags d)). refine (conj _ (conj _ _)).
    -
    eapply fg_cons; [exact (fg_fv _ _ H1)|].
    eapply fg_cons; [exact (fg_fv _ _ H2)|].
    eapply fg_cons; [refine (fg_refs _ H3 _); lia|].
    eapply fg_cons; [exact (fg_fv _ _ H4)|].
    eapply fg_cons; [refine (fg_refs _ H5 _); lia|].
    eapply fg_cons; [apply fg_ref; intros r Er; unfold if_any in H6; rewrite ?Er in H6; try (injection Er as <-); exact H6|].
    eapply fg_cons; [exact (fg_fv _ _ H7)|].
    eapply fg_cons; [exact (fg_fv _ _ H8)|].
    eapply fg_cons; [exact (fg_fv _ _ H9)|].
    eapply fg_cons; [exact (fg_fv _ _ H10)|].
    eapply fg_cons; [exact (has_text_1 _ _ _ Ha)|].
    eapply fg_cons; [exact (has_text_2 _ _ _ Ha)|].
    eapply fg_cons; [exact (fg_fv _ _ H12)|].
    eapply fg_cons; [exact (fg_fv _ _ H13)|].
    eapply fg_cons; [exact (fg_fv _ _ H14)|].
    eapply fg_cons; [exact (fg_fv _ _ H15)|].
    eapply fg_cons; [exact (fg_fv _ _ H16)|].
    eapply fg_cons; [exact (fg_fv _ _ H17)|].
    eapply fg_cons; [exact (fg_fv _ _ H18)|].
    eapply fg_cons; [exact (fg_fv _ _ H19)|].
    eapply fg_cons; [apply (runs_fgood runs R1); lia|].
    apply fg_nil.
    - refine (lg_tags _ H20 _); lia.
    - lia. }
  intros o O. node_read O W M.
  split; [|refine (r_runs _ _ o W O runs _ _ R1); reflexivity].
  split; [exact (kind_is _ _ o O)|].
  split; [eapply (r_required _ o W M); [reflexivity|reflexivity|exact H1]|].
  split; [eapply (r_defaulted _ o W M); [reflexivity|reflexivity|exact H2]|].
  split; [eapply (r_children _ _ o W O); [reflexivity|reflexivity]|].
  split; [eapply (r_defaulted _ o W M); [reflexivity|reflexivity|exact H4]|].
  split; [eapply (r_children _ _ o W O); [reflexivity|reflexivity]|].
  split; [eapply (r_reference _ _ o W O); [reflexivity|reflexivity]|].
  split; [eapply (r_defaulted _ o W M); [reflexivity|reflexivity|exact H7]|].
  split; [eapply (r_defaulted _ o W M); [reflexivity|reflexivity|exact H8]|].
  split; [eapply (r_optional _ o W M); [reflexivity|reflexivity|exact H9]|].
  split; [eapply (r_defaulted _ o W M); [reflexivity|reflexivity|exact H10]|].
  split; [eapply (r_paragraph_text _ o W M _ sa sb Ha); reflexivity|].
  split; [eapply (r_defaulted _ o W M); [reflexivity|reflexivity|exact H12]|].
  split; [eapply (r_defaulted _ o W M); [reflexivity|reflexivity|exact H13]|].
  split; [eapply (r_defaulted _ o W M); [reflexivity|reflexivity|exact H14]|].
  split; [eapply (r_defaulted _ o W M); [reflexivity|reflexivity|exact H15]|].
  split; [eapply (r_defaulted _ o W M); [reflexivity|reflexivity|exact H16]|].
  split; [eapply (r_defaulted _ o W M); [reflexivity|reflexivity|exact H17]|].
  split; [eapply (r_optional _ o W M); [reflexivity|reflexivity|exact H18]|].
  split; [eapply (r_defaulted _ o W M); [reflexivity|reflexivity|exact H19]|].
  eapply (r_tags _ _ o W O); [reflexivity|reflexivity].
Qed.

(** ** Nodes whose content is more than its properties *)
Lemma w_section cell id d : id_fits id -> sn_context_id d = fst cell ->
  has (req_rel uuid (sn_entity_guid d)) -> ids_ok (sn_page_series d) -> has (req_rel qword (sn_created_at d)) ->
  written cell id (fun o => section_node o d).
Proof.
  intros Hid Hc (s1 & H1) (H2 & L2) (s3 & H3).
  exists (AObject id 0x00060007 [(0x1C001C30, fv s1); (0x24001C20, frefs (sn_page_series d)); (0x18001C65, fv s3)] None None).
  enough_good.
  { node_good Hid. eexists; exists (0%nat). refine (conj _ (conj _ _)).
    - eapply fg_cons; [exact (fg_fv _ _ H1)|]. eapply fg_cons; [refine (fg_refs _ H2 _); lia|]. eapply fg_cons; [exact (fg_fv _ _ H3)|]. apply fg_nil.
    - exact I.
    - lia. }
  intros o O. node_read O W M. split; [exact (kind_is _ _ o O)|]. split; [rewrite (context_is _ _ o O); exact Hc|].
  split; [eapply (r_required _ o W M); [reflexivity|reflexivity|exact H1]|].
  split; [eapply (r_children _ _ o W O); [reflexivity|reflexivity]|].
  eapply (r_required _ o W M); [reflexivity|reflexivity|exact H3].
Qed.

Lemma w_manifest cell id page : id_fits id -> id_fits page -> written cell id (fun o => manifest_node o page).
Proof.
  intros Hid Hp. exists (AObject id 0x00060037 [(0x24001C1F, frefs [page])] None None). enough_good.
  { node_good Hid. eexists; exists (0%nat). refine (conj _ (conj _ _)).
    - eapply fg_cons; [apply fg_refs; [constructor; [exact Hp|constructor]|reflexivity]|apply fg_nil].
    - exact I.
    - reflexivity. }
  intros o O. node_read O W M. split; [exact (kind_is _ _ o O)|]. exists []. eapply (r_references _ _ o W O); reflexivity.
Qed.

Lemma w_unknown cell id : id_fits id -> written cell id (fun o => ob_jcid o = 0x00120001).
Proof.
  intros Hid. exists (AObject id 0x00120001 [] None None). enough_good.
  { node_good Hid. eexists; exists (0%nat). refine (conj _ (conj _ _)); [apply fg_nil|exact I|reflexivity]. }
  intros o O. exact (kind_is _ _ o O).
Qed.

Lemma file_data_good b : file_data b -> file_good (Some b).
Proof. intro H. exact H. Qed.

Lemma w_file_container cell id b : id_fits id -> file_data b -> written cell id (fun o => file_container o b).
Proof.
  intros Hid Hb. exists (AObject id 0x00080036 [] None (Some b)). split; [reflexivity|]. split.
  { refine (conj _ (conj _ (conj _ (conj Hid (conj eq_refl (file_data_good _ Hb)))))); [apply nodup_ok; reflexivity| |cbn; lia].
    exists 0%nat, 0%nat. refine (conj fg_nil (conj I _)). reflexivity. }
  intros o O. split; [exact (kind_is _ _ o O)|]. exact (file_is_ _ _ o O).
Qed.

Lemma w_picture cell id d : id_fits id -> file_data (pc_data d) -> has (opt_rel text (pc_extension d)) ->
  written cell id (fun o => picture_object o d).
Proof.
  intros Hid Hb (s1 & H1). exists (AObject id 0x00080039 [(0x24003424, fv s1)] None (Some (pc_data d))). enough_good.
  { refine (conj _ (conj _ (conj _ (conj Hid (conj eq_refl (file_data_good _ Hb)))))); [apply nodup_ok; reflexivity| |cbn; lia].
    eexists; exists 0%nat. refine (conj _ (conj I _)); [eapply fg_cons; [exact (fg_fv _ _ H1)|apply fg_nil]|reflexivity]. }
  intros o O. node_read O W M. split; [left; exact (kind_is _ _ o O)|]. rewrite (file_is_ _ _ o O). split; [reflexivity|].
  eapply (r_optional _ o W M); [reflexivity|reflexivity|exact H1].
Qed.

Definition box_list (b : option (N * N * N * N)) : option (list N) := option_map (fun '(a, b, c, e) => [a; b; c; e]) b.
Lemma w_ink_node cell id d : id_fits id -> ids_ok (ik_strokes d) -> has (opt_rel dwords (box_list (ik_bounding_box d))) ->
  written cell id (fun o => ink_node o d).
Proof.
  intros Hid (H1 & L1) (s2 & H2). exists (AObject id 0x0002003B [(0x24003416, frefs (ik_strokes d)); (0x1C003418, fv s2)] None None). enough_good.
  { node_good Hid. eexists; exists (0%nat). refine (conj _ (conj _ _)).
    - eapply fg_cons; [refine (fg_refs _ H1 _); lia|]. eapply fg_cons; [exact (fg_fv _ _ H2)|apply fg_nil].
    - exact I.
    - lia. }
  intros o O. node_read O W M. split; [exact (kind_is _ _ o O)|]. split; [eapply (r_references _ _ o W O); reflexivity|].
  exists (box_list (ik_bounding_box d)). split; [eapply (r_optional _ o W M); [reflexivity|reflexivity|exact H2]|].
  destruct (ik_bounding_box d) as [[[[x y] z] w]|]; [left; exists x, y, z, w; split; reflexivity|].
  right. split; [|reflexivity]. intros (x & y & z & w & E). discriminate E.
Qed.

(** ** Dimensions of strokes *)
Definition dimension_x := InkDimension 0x598a6a8f52c04ba093afaf357411a561 0 0.
Definition dimension_y := InkDimension 0xb53f9f7504e04498a7eec30dbb5a9011 0 0.
Lemma e_dimensions : enc dimension_table [dimension_x; dimension_y].
Proof.
  set (e := fun g => guid_enc g ++ repeat 0 16).
  assert (L : forall g, length (e g) = 32%nat) by (intro g; unfold e; rewrite app_length, CodecRT2.guid_enc_length, repeat_length; reflexivity).
  assert (B : forall g, bytes_ok (e g)) by (intro g; unfold e; apply Forall_app; split; [apply CodecRT2.guid_enc_ok|repeat constructor]).
  assert (Z : signed (VU32 (le (repeat 0 4))) 0%Z) by (exists 0; split; reflexivity).
  assert (P : forall g r xs, g < 2 ^ 128 -> dimensions r xs -> dimensions (e g ++ r) (InkDimension g 0 0 :: xs)).
  { intros g r xs Hg D. apply di_more with (lo := repeat 0 4) (hi := repeat 0 4) (t := repeat 0 8); [apply L|exact (CodecRT2.guid_roundtrip g (repeat 0 16) Hg)|reflexivity|reflexivity|exact Z|exact Z|exact D]. }
  exists (SVec (e (id_id dimension_x) ++ e (id_id dimension_y) ++ [])). split.
  - apply vg_small. split; [apply Forall_app; split; [apply B|apply Forall_app; split; [apply B|constructor]]|]. rewrite !app_length, !L. reflexivity.
  - intros v V. inversion V; subst. eexists. split; [reflexivity|]. apply P; [reflexivity|]. apply P; [reflexivity|]. apply di_end. cbn. lia.
Qed.

(** ** Run data *)
Section Runs.
  Context (fs : list (N * option aprop)) (r : object) (R : is_run fs r).
  Lemma run_optional {A} raw (Q : pvalue -> A -> Prop) x s : field_at raw fs = fv s -> writes (opt_rel Q x) s -> optional r raw Q x.
  Proof. destruct R as (W & M). intros F H. exact (r_optional (run_object fs) r W M raw Q x s eq_refl F H). Qed.
  Lemma run_defaulted {A} raw (Q : pvalue -> A -> Prop) d x s : field_at raw fs = fv s -> writes (def_rel Q d x) s -> defaulted r raw Q d x.
  Proof. destruct R as (W & M). intros F H. exact (r_defaulted (run_object fs) r W M raw Q d x s eq_refl F H). Qed.
End Runs.

(** Values of properties that are absent. *)
Lemma has_none {A} (R : pvalue -> A -> Prop) : has (opt_rel R None).
Proof. exists None. reflexivity. Qed.
Lemma has_default {A} (R : pvalue -> A -> Prop) d : has (def_rel R d d).
Proof. exists None. reflexivity. Qed.

(** One run with the data of a formula object and of an embedded object. *)
Lemma w_run m e :
  has (opt_rel dword (md_object_type m)) -> has (opt_rel dword (md_arg_count m)) -> has (opt_rel byte (md_column m)) ->
  has (opt_rel byte (md_align m)) -> has (def_rel character None (md_char m)) -> has (def_rel character None (md_char1 m)) ->
  has (def_rel character None (md_char2 m)) ->
  has (opt_rel float (ei_space_width e)) -> has (opt_rel float (ei_space_height e)) -> has (opt_rel float (ei_start_x e)) ->
  has (opt_rel float (ei_start_y e)) -> has (opt_rel float (ei_height e)) -> has (opt_rel float (ei_width e)) ->
  has (opt_rel float (ei_offset_horiz e)) -> has (opt_rel float (ei_offset_vert e)) ->
  exists fs, run_good fs /\ forall r, is_run fs r -> math_object_data r m /\ embedded_ink_run r e.
Proof.
  intros (s1 & H1) (s2 & H2) (s3 & H3) (s4 & H4) (s5 & H5) (s6 & H6) (s7 & H7) (s8 & H8) (s9 & H9) (s10 & H10) (s11 & H11) (s12 & H12) (s13 & H13)
    (s14 & H14) (s15 & H15).
  exists [(0x1400344F, fv s1); (0x14003450, fv s2); (0x0C003451, fv s3); (0x0C003452, fv s4); (0x10003453, fv s5); (0x10003454, fv s6);
          (0x10003455, fv s7); (0x14001C27, fv s8); (0x14001C28, fv s9); (0x1400349E, fv s10); (0x1400349F, fv s11); (0x140034A1, fv s12);
          (0x140034A0, fv s13); (0x140034A2, fv s14); (0x140034A3, fv s15)].
  split.
  - refine (conj _ (conj _ _)); [apply nodup_ok; reflexivity| |cbn; lia].
    eapply pf_cons; [exact H1|]. eapply pf_cons; [exact H2|]. eapply pf_cons; [exact H3|]. eapply pf_cons; [exact H4|]. eapply pf_cons; [exact H5|].
    eapply pf_cons; [exact H6|]. eapply pf_cons; [exact H7|]. eapply pf_cons; [exact H8|]. eapply pf_cons; [exact H9|]. eapply pf_cons; [exact H10|].
    eapply pf_cons; [exact H11|]. eapply pf_cons; [exact H12|]. eapply pf_cons; [exact H13|]. eapply pf_cons; [exact H14|]. eapply pf_cons; [exact H15|].
    apply pf_nil.
  - intros r R. split.
    + split; [eapply (run_optional _ r R); [reflexivity|exact H1]|]. split; [eapply (run_optional _ r R); [reflexivity|exact H2]|].
      split; [eapply (run_optional _ r R); [reflexivity|exact H3]|]. split; [eapply (run_optional _ r R); [reflexivity|exact H4]|].
      split; [eapply (run_defaulted _ r R); [reflexivity|exact H5]|]. split; [eapply (run_defaulted _ r R); [reflexivity|exact H6]|].
      eapply (run_defaulted _ r R); [reflexivity|exact H7].
    + split; [eapply (run_optional _ r R); [reflexivity|exact H8]|]. split; [eapply (run_optional _ r R); [reflexivity|exact H9]|].
      split; [eapply (run_optional _ r R); [reflexivity|exact H10]|]. split; [eapply (run_optional _ r R); [reflexivity|exact H11]|].
      split; [eapply (run_optional _ r R); [reflexivity|exact H12]|]. split; [eapply (run_optional _ r R); [reflexivity|exact H13]|].
      split; [eapply (run_optional _ r R); [reflexivity|exact H14]|]. eapply (run_optional _ r R); [reflexivity|exact H15].
Qed.
