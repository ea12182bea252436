(** Renaming identifiers: documents. *)
From Coq Require Import Lia ZifyBool ZifyNat ZifyN Permutation.
From Verif Require Import Base BaseProofs Codec Package SpecPackage PackageRT SpecAccept AcceptProofs PropSet PropIds
  Store Shapes Props Nodes Doc Notebook SpecSame SpecRename SameProofs ForwardProofs RenameProofs RenameProofs2.

#[export] Hint Rewrite q_toc_parse q_section_node_parse q_section_metadata_parse q_page_series_node_parse q_page_node_parse q_page_metadata_parse q_title_node_parse q_embedded_file_container_parse q_embedded_file_node_parse q_picture_container_parse q_iframe_node_parse q_image_node_parse q_embedded_ink_parse q_ink_container_parse q_ink_data_node_parse q_ink_stroke_node_parse q_stroke_properties_parse q_math_data_parse q_tag_definition_parse q_number_list_parse q_style_parse q_rich_text_node_parse q_outline_element_node_parse q_outline_group_node_parse q_outline_node_parse q_table_cell_node_parse q_table_node_parse q_table_row_node_parse q_page_manifest_parse q_tag_parse_data : ren.
Ltac fields := cbn [r_tag_data tg_definition tg_created_at tg_completed_at tg_item_status r_toc_data tc_children tc_filename tc_ordering_id tc_color r_section_data sn_context_id sn_entity_guid sn_page_series sn_created_at r_page_series_data pn_entity_guid pn_page_spaces pn_page_metadata pn_created_at r_page_data pd_last_modified pd_cached_title pd_author pd_content pd_title pd_orientation_portrait pd_page_width pd_page_height pd_margin_origin_x pd_margin_origin_y pd_margin_left pd_margin_right pd_margin_top pd_margin_bottom pd_page_size pd_rtl r_title_data tn_last_modified tn_children tn_offset_horizontal tn_offset_vertical tn_alignment_in_parent tn_alignment_self r_embedded_file_data ef_last_modified ef_picture_container ef_layout_max_width ef_layout_max_height ef_is_layout_size_set_by_user ef_text ef_text_language_code ef_alignment_in_parent ef_alignment_self ef_container ef_name ef_source_path ef_file_type ef_picture_width ef_picture_height ef_note_tags ef_offset_horiz ef_offset_vert r_image_data im_last_modified im_picture_container im_layout_max_width im_layout_max_height im_is_layout_size_set_by_user im_language_code im_alt_text im_alignment_in_parent im_alignment_self im_filename im_displayed_page_number im_text im_text_language_code im_picture_width im_picture_height im_hyperlink_url im_note_tags im_offset_horiz im_offset_vert im_is_background im_iframe r_ink_container_data ic_offset_horiz ic_offset_vert ic_last_modified ic_ink_data ic_scaling_x ic_scaling_y r_ink_data ik_strokes ik_bounding_box r_ink_stroke_data ss_path ss_bias ss_language_code ss_properties r_rich_text_data rt_last_modified rt_tight_layout rt_run_formatting rt_run_indices rt_run_data_object rt_paragraph_style rt_space_before rt_space_after rt_line_spacing_exact rt_paragraph_alignment rt_text rt_is_title_time rt_is_boiler_text rt_is_title_date rt_is_title_text rt_alignment_in_parent rt_alignment_self rt_language_code rt_rtl rt_note_tags r_outline_element_data oe_created_at oe_last_modified oe_children oe_child_level oe_contents oe_list_contents oe_list_spacing oe_author_original oe_author_most_recent oe_rtl oe_is_deletable oe_is_selectable oe_is_title_text r_outline_group_data gr_last_modified gr_children gr_child_level r_outline_data ou_last_modified ou_children ou_child_level ou_layout_max_height ou_layout_max_width ou_layout_reserved_width ou_layout_minimum_outline_width ou_layout_tight_alignment ou_is_layout_size_set_by_user ou_offset_horiz ou_offset_vert ou_list_spacing ou_indent_distance ou_alignment_in_parent ou_alignment_self ou_is_deletable ou_is_title_date ou_is_selectable ou_is_title_text ou_is_read_only ou_descendants_cannot_be_moved ou_tight_layout r_table_cell_data ce_last_modified ce_contents ce_layout_max_width ce_indent_distance ce_background_color r_table_data ta_last_modified ta_rows ta_row_count ta_col_count ta_cols_locked ta_col_widths ta_borders_visible ta_alignment_in_parent ta_alignment_self ta_note_tags r_table_row_data ro_last_modified ro_cells].

Section Docs.
  Context (f g : exguid -> exguid) (R : renaming f g).
  Notation Q := (r_space f).

  Lemma d_get sp i : get_object (Q sp) (f i) = option_map (r_object f) (get_object sp i).
  Proof. exact (alookup_remap exguid_eqb exguid_eqb f (r_object f) (f_eqb f g R) i (sp_objects sp)). Qed.
  Lemma d_need sp i : need_object (f i) (Q sp) = rfun (r_object f) (need_object i sp).
  Proof. unfold need_object. now rewrite d_get, ok_or_map. Qed.
  Lemma d_kind o : need_kind (r_object f o) = need_kind o.
  Proof. reflexivity. Qed.

  Ltac dc_step :=
    cbv beta zeta; fields;
    lazymatch goal with
    | |- ?r = ?r => reflexivity
    | |- rbind (need_object (f _) (r_space f _)) _ = _ => rewrite d_need, bind_rfun; apply rbind_ext; intro
    | |- rbind (rfun _ _) _ = _ => rewrite bind_rfun
    | |- rbind (need_kind (r_object f _)) _ = _ => rewrite d_kind; apply rbind_ext; intro
    | |- rbind (?p (r_object f _)) _ = rbind (?p _) _ => autorewrite with ren; rewrite ?bind_rfun; apply rbind_ext; intro
    | |- ?p (r_object f ?o) = ?p ?o => autorewrite with ren; reflexivity
    | |- rbind ?r _ = rbind ?r _ => apply rbind_ext; intro
    | |- rbind _ _ = rbind _ _ => apply bind_same; [|intro]
    | |- map_res _ (map _ _) = map_res _ _ => rewrite map_res_map; apply map_res_ext; intro
    | |- opt_map_res _ (option_map _ _) = opt_map_res _ _ => rewrite opt_map_res_map; apply opt_same; intro
    | |- (match ?x with _ => _ end) = (match ?x with _ => _ end) => destruct x
    | |- _ => solve [eauto with renames nocore]
    end.
  Ltac dc := repeat dc_step.

  Lemma d_tag_definition sp i : note_tag_definition (f i) (Q sp) = note_tag_definition i sp.
  Proof. unfold note_tag_definition. dc. Qed.
  Hint Resolve d_tag_definition : renames.
  Lemma d_note_tags sp l : note_tags (map (r_tag_data f) l) (Q sp) = note_tags l sp.
  Proof. unfold note_tags. dc. Qed.
  Hint Resolve d_note_tags : renames.
  Lemma d_list sp i : parse_list (f i) (Q sp) = parse_list i sp.
  Proof. unfold parse_list. dc. Qed.
  Lemma d_iframe sp i : parse_iframe (f i) (Q sp) = parse_iframe i sp.
  Proof. unfold parse_iframe. dc. Qed.
  Hint Resolve d_list d_iframe : renames.
  Lemma d_embedded_file sp i : parse_embedded_file (f i) (Q sp) = parse_embedded_file i sp.
  Proof. unfold parse_embedded_file. dc. Qed.
  Lemma d_image sp i : parse_image (f i) (Q sp) = parse_image i sp.
  Proof.
    unfold parse_image. dc_step. dc_step. fields. rewrite opt_map_res_map.
    rewrite (opt_same _ (fun c => rfun (r_object f) (need_object c sp))) by (intro; apply d_need).
    rewrite opt_map_res_fun, bind_rfun. apply rbind_ext. intro co. rewrite opt_map_res_map.
    apply bind_same; [apply opt_same; intro; reflexivity|]. intro cd. dc.
  Qed.
  Lemma d_stroke sp i x y : parse_ink_stroke (f i) (Q sp) x y = parse_ink_stroke i sp x y.
  Proof. unfold parse_ink_stroke. dc. Qed.
  Hint Resolve d_embedded_file d_image d_stroke : renames.
  Lemma d_ink_data sp i x y : parse_ink_data (f i) (Q sp) x y = parse_ink_data i sp x y.
  Proof. unfold parse_ink_data. dc. Qed.
  Hint Resolve d_ink_data : renames.
  Lemma d_ink sp i : parse_ink (f i) (Q sp) = parse_ink i sp.
  Proof. unfold parse_ink. do 2 dc_step. fields. destruct (ic_ink_data _); cbn [option_map]; dc. Qed.
  Lemma d_embedded_ink sp i d : parse_embedded_ink (f i) (Q sp) d = parse_embedded_ink i sp d.
  Proof. unfold parse_embedded_ink. dc. Qed.
  Hint Resolve d_ink d_embedded_ink : renames.
  Lemma d_embedded sp refs objs : forall i k,
    embedded_objects (Q sp) (map f refs) i k objs = embedded_objects sp refs i k objs.
  Proof.
    induction objs as [|[t d] objs IH]; intros i k; cbn [embedded_objects]; [reflexivity|].
    destruct t as [t|].
    - apply rbind_ext. intro x. now rewrite IH.
    - apply bind_same; [|intro; now rewrite IH]. destruct refs as [|r refs]; [reflexivity|]. cbn [map].
      change (f r :: map f refs) with (map f (r :: refs)). rewrite nth_error_map.
      destruct (nth_error (r :: refs) _); cbn [option_map]; [|reflexivity]. now rewrite d_embedded_ink.
  Qed.
  Hint Resolve d_embedded : renames.
  Lemma d_rich_text sp i : parse_rich_text (f i) (Q sp) = parse_rich_text i sp.
  Proof.
    unfold parse_rich_text. dc_step. dc_step. dc_step. dc_step. dc_step; [dc|].
    rewrite q_text_run_data. change (@nil object) with (map (r_object f) []) at 1. rewrite (q_dflt (map (r_object f)) []), bind_rfun.
    apply rbind_ext. intro runs.
    replace (combine (map (r_object f) runs) a3) with (map (fun e => (r_object f (fst e), snd e)) (combine runs a3)).
    2:{ generalize a3. clear. induction runs as [|r l IH]; intros [|s m]; cbn; [reflexivity..|]. now rewrite IH. }
    apply bind_same; [rewrite map_res_map; apply map_res_ext; intros [r s]; reflexivity|]. intro math.
    apply bind_same; [rewrite map_res_map; apply map_res_ext; intros [r s]; reflexivity|]. intro objs.
    fields. dc.
  Qed.
  Hint Resolve d_rich_text : renames.
  Lemma d_outlines sp : forall n,
    (forall i, parse_outline_item n (Q sp) (f i) = parse_outline_item n sp i) /\
    (forall i, parse_outline_element n (Q sp) (f i) = parse_outline_element n sp i) /\
    (forall i, parse_content n (Q sp) (f i) = parse_content n sp i).
  Proof.
    induction n as [|n (I1 & I2 & I3)].
    - repeat split; intro; reflexivity.
    - repeat split; intro i; cbn [parse_outline_item parse_outline_element parse_content]; dc; auto.
      unfold parse_table, parse_row, parse_cell. dc; auto.
  Qed.
  Lemma d_item sp n i : parse_outline_item n (Q sp) (f i) = parse_outline_item n sp i.
  Proof. apply d_outlines. Qed.
  Hint Resolve d_item : renames.
  Lemma d_outline sp n i : parse_outline n (Q sp) (f i) = parse_outline n sp i.
  Proof. unfold parse_outline. dc. Qed.
  Hint Resolve d_outline : renames.
  Lemma d_page_content sp n i : parse_page_content n (Q sp) (f i) = parse_page_content n sp i.
  Proof. unfold parse_page_content. dc. Qed.
  Lemma d_title sp n i : parse_title n (Q sp) (f i) = parse_title n sp i.
  Proof. unfold parse_title. dc. Qed.
  Hint Resolve d_page_content d_title : renames.

  Lemma d_root sp k : alookup role_eqb k (sp_roots (Q sp)) = option_map f (alookup role_eqb k (sp_roots sp)).
  Proof. exact (alookup_remap role_eqb role_eqb (fun r => r) f (fun _ _ => eq_refl) k (sp_roots sp)). Qed.
  Lemma d_content sp : content_root (Q sp) = option_map f (content_root sp).
  Proof. apply d_root. Qed.
  Lemma d_metadata sp : metadata_root (Q sp) = option_map f (metadata_root sp).
  Proof. apply d_root. Qed.

  Lemma d_page sp n : parse_page n (Q sp) = parse_page n sp.
  Proof.
    unfold parse_page, page_metadata, page_manifest, page_node. rewrite d_metadata, d_content, !ok_or_map.
    apply bind_same; [rewrite bind_rfun; dc|]. intro m.
    match goal with |- rbind ?r' _ = rbind ?r _ => replace r' with (rfun f r) end.
    2:{ rewrite bind_rfun, rfun_bind. apply rbind_ext. intro. rewrite d_need, bind_rfun, rfun_bind. apply rbind_ext. intro.
        now rewrite q_page_manifest_parse. }
    rewrite bind_rfun. apply rbind_ext. intro p.
    match goal with |- rbind ?r' _ = rbind ?r _ => replace r' with (rfun (r_page_data f) r) end.
    2:{ rewrite d_need, bind_rfun, rfun_bind. apply rbind_ext. intro. now rewrite q_page_node_parse. }
    rewrite bind_rfun. apply rbind_ext. intro d. dc.
  Qed.

  Lemma d_space st c : object_space (r_store f st) (rename_cell f c) = option_map Q (object_space st c).
  Proof. exact (alookup_remap cellid_eqb cellid_eqb (rename_cell f) Q (fc_eqb f g R) c (st_spaces st)). Qed.

  Lemma d_section st n file : Doc.parse_section n (r_store f st) file = Doc.parse_section n st file.
  Proof.
    unfold Doc.parse_section, section_metadata, section_content. cbn [r_store st_data_root].
    rewrite d_metadata, d_content, !ok_or_map, !bind_rfun. apply bind_same; [dc|]. intro m.
    match goal with |- rbind ?r' _ = rbind ?r _ => replace r' with (rfun (r_section_data f) r) end.
    2:{ rewrite rfun_bind. apply rbind_ext. intro. rewrite d_need, bind_rfun, rfun_bind. apply rbind_ext. intro.
        now rewrite q_section_node_parse. }
    rewrite bind_rfun. apply rbind_ext. intro c. cbv zeta. fields. apply bind_same; [|reflexivity].
    rewrite map_res_map. apply map_res_ext. intro i. unfold parse_page_series. cbn [r_store st_data_root].
    rewrite d_need, bind_rfun. apply rbind_ext. intro o. rewrite q_page_series_node_parse, bind_rfun. apply rbind_ext. intro d.
    fields. rewrite map_res_map. apply map_res_ext. intro k. rewrite d_space, ok_or_map, bind_rfun. apply rbind_ext.
    intro sp. apply d_page.
  Qed.

  Lemma d_toc sp n : parse_toc n (Q sp) = parse_toc n sp.
  Proof.
    unfold parse_toc. rewrite d_content, ok_or_map, bind_rfun. apply rbind_ext. intro i.
    assert (T : forall n0 k, parse_toc_entry n0 (Q sp) (f k) = parse_toc_entry n0 sp k).
    { induction n0 as [|n0 IH]; intro k; cbn [parse_toc_entry]; [reflexivity|]. dc. }
    now rewrite T.
  Qed.

  (** ** Whole reads *)
  Lemma without_ren (p : package) : r_pk f p = r_pk f (without_fragments p).
  Proof. destruct p; reflexivity. Qed.
  Lemma fold_content l : forall p, fold_left elem_step l p =
    fold_left (fun p x => elem_step p (Elem (fst x) (Serial 0 0) (snd x))) (map (fun x => (el_id x, el_content x)) l) p.
  Proof.
    induction l as [|x l IH]; intro p; cbn [map fold_left fst snd]; [reflexivity|]. rewrite <- IH. f_equal.
  Qed.
  Lemma d_package els els' :
    content els' = map (fun x => (f (fst x), rename_element f (snd x))) (content els) ->
    without_fragments (fold_left aelem_step els' package_empty) = r_pk f (fold_left aelem_step els package_empty).
  Proof.
    intro C. rewrite without_ren, !without_fold. change (without_fragments package_empty) with (r_pk f package_empty) at 1.
    rewrite <- (fold_ren f g R). rewrite (fold_content (map _ _)), fold_content.
    change (map (fun x => (el_id x, el_content x)) (proper els')) with (content els'). rewrite C. f_equal.
    unfold content. rewrite !map_map. reflexivity.
  Qed.

  Lemma open_renamed h n d d' : renamed f d d' -> open_store (r_order f g R h) n d' = rfun (r_store f) (open_store h n d).
  Proof.
    intros (e & t & ft & fi & lv & ff & e' & t' & ft' & fi' & lv' & ff' & index & schema & schema' & els & els'
      & -> & H & -> & H' & C).
    unfold open_store, run. rewrite (file_reads _ _ _ _ _ _ _ _ t H), (file_reads _ _ _ _ _ _ _ _ t' H'). cbn [rbind].
    rewrite <- (r_parse_store f g R h n ft fi lv ff index schema _ ft' fi' lv' ff' schema'). apply store_agree.
    - cbn [pg_package]. rewrite <- (d_package _ _ C). split; reflexivity.
    - left. reflexivity.
  Qed.

  Lemma buffer_renamed h n d d' file : renamed f d d' ->
    parse_section_buffer (r_order f g R h) n d' file = parse_section_buffer h n d file.
  Proof.
    intro H. unfold parse_section_buffer. rewrite (open_renamed h n _ _ H), bind_rfun. apply rbind_ext. intro st.
    cbn [r_store st_schema]. destruct (_ =? _); [|reflexivity]. apply d_section.
  Qed.

  Lemma file_renamed h n fs fs' p : same_files (renamed f) fs fs' ->
    parse_section_file (r_order f g R h) n fs' p = parse_section_file h n fs p.
  Proof.
    intros (_ & _ & _ & _ & K). specialize (K p). unfold parse_section_file.
    destruct (fs_read fs p), (fs_read fs' p); cbn in K; try contradiction; [|reflexivity].
    cbn [ok_or rbind]. rewrite (open_renamed h n _ _ K), bind_rfun. apply rbind_ext. intro st.
    cbn [r_store st_schema]. destruct (_ =? _); [|reflexivity]. apply rbind_ext. intro. apply d_section.
  Qed.

  Lemma notebook_renamed s h n fs fs' : same_files (renamed f) fs fs' -> forall d p,
    parse_notebook s (r_order f g R h) d n fs' p = parse_notebook s h d n fs p.
  Proof.
    intros K. induction d as [|d IH]; intro p; cbn [parse_notebook]; [reflexivity|].
    pose proof K as (X & F & C & D & B). specialize (B p).
    destruct (fs_read fs p), (fs_read fs' p); cbn in B; try contradiction; [|reflexivity].
    cbn [ok_or rbind]. rewrite (open_renamed h n _ _ B), bind_rfun. apply rbind_ext. intro st.
    cbn [r_store st_schema st_data_root]. destruct (_ =? _); [|reflexivity]. apply rbind_ext. intro b.
    rewrite d_toc. apply rbind_ext. intros [names c].
    assert (RE : forall nm, resolve_entry_path s fs' b nm = resolve_entry_path s fs b nm).
    { intro nm. unfold resolve_entry_path. destruct (is_absolute nm); [reflexivity|]. apply rbind_ext.
      intros [|y l1]; [reflexivity|]. cbv zeta. now rewrite X, !C. }
    rewrite (map_res_ext _ _ names RE). apply rbind_ext. intro ps.
    rewrite (filter_ext (fs_exists fs') (fs_exists fs)) by (intro; apply X).
    f_equal. apply map_res_ext. intro q. rewrite F, D, (file_renamed h n fs fs' q K).
    destruct (fs_is_file fs q); [reflexivity|]. do 3 (apply rbind_ext; intro). now rewrite IH.
  Qed.
End Docs.

(** ** Renaming back *)
Section BackElements.
  Context (f g : exguid -> exguid) (L : forall i, g (f i) = i).
  Lemma back_list l : map g (map f l) = l.
  Proof. rewrite map_map. now apply map_same. Qed.
  Lemma back_cells l : map (rename_cell g) (map (rename_cell f) l) = l.
  Proof. rewrite map_map. apply map_same. exact (back_cell f g L). Qed.
  Lemma back_element x : rename_element g (rename_element f x) = x.
  Proof.
    destruct x as [l|s l|r|r b l|d o|b]; cbn [rename_element]; rewrite ?L; f_equal; rewrite ?map_map; try apply map_same.
    - intros [m s|c m s|rv m s]; cbn [rename_index_item]; now rewrite ?(back_cell f g L), ?L.
    - intros [k c]. cbn [fst snd]. now rewrite (back_cell f g L).
    - intros [k o|x]; cbn [rename_rev_item]; now rewrite L.
    - intros [? ? ? ? ?|? ? ? ? ?]; cbn [rename_decl]; now rewrite ?L.
    - intros [a c b|a c b|a c b]; cbn [rename_data]; now rewrite ?back_list, ?back_cells, ?L.
  Qed.
  Lemma renamed_back d d' : renamed f d d' -> renamed g d' d.
  Proof.
    intros (e & t & ft & fi & lv & ff & e' & t' & ft' & fi' & lv' & ff' & index & schema & schema' & els & els'
      & E & H & E' & H' & C).
    exists e', t', ft', fi', lv', ff', e, t, ft, fi, lv, ff, (f index), schema', schema, els', els.
    rewrite L. refine (conj E' (conj H' (conj E (conj H _)))). rewrite C, map_map. symmetry. apply map_same.
    intros [i x]. cbn [fst snd]. now rewrite L, back_element.
  Qed.
End BackElements.

Lemma renaming_back f g : renaming f g -> renaming g f.
Proof. intros (A & B & C). repeat split; auto. rewrite <- C at 1. apply A. Qed.

Lemma section_answers f g d d' : renaming f g -> renamed f d d' ->
  (forall h, exists h', forall n file, parse_section_buffer h' n d' file = parse_section_buffer h n d file) /\
  (forall h', exists h, forall n file, parse_section_buffer h' n d' file = parse_section_buffer h n d file).
Proof.
  intros R H. split.
  - intro h. exists (r_order f g R h). intros. now apply buffer_renamed.
  - intro h'. exists (r_order g f (renaming_back _ _ R) h'). intros. symmetry. apply buffer_renamed.
    apply renamed_back with (f := f); [apply R|exact H].
Qed.

Lemma files_back f g fs fs' : (forall i, g (f i) = i) -> same_files (renamed f) fs fs' -> same_files (renamed g) fs' fs.
Proof.
  intros L (X & F & C & D & K). repeat split; intro p; auto. specialize (K p).
  destruct (fs_read fs p), (fs_read fs' p); cbn in *; auto. eapply renamed_back; eauto.
Qed.

Lemma notebook_answers f g fs fs' : renaming f g -> same_files (renamed f) fs fs' ->
  (forall h, exists h', forall s k n p, parse_notebook s h' k n fs' p = parse_notebook s h k n fs p) /\
  (forall h', exists h, forall s k n p, parse_notebook s h' k n fs' p = parse_notebook s h k n fs p).
Proof.
  intros R H. split.
  - intro h. exists (r_order f g R h). intros. now apply notebook_renamed.
  - intro h'. exists (r_order g f (renaming_back _ _ R) h'). intros. symmetry. apply notebook_renamed.
    apply files_back with (f := f); [apply R|exact H].
Qed.

Lemma section_determined f g d d' : renaming f g -> renamed f d d' ->
  forall n file r, (forall h, parse_section_buffer h n d file = r) -> forall h, parse_section_buffer h n d' file = r.
Proof.
  intros R H n file r A h. destruct (proj2 (section_answers _ _ _ _ R H) h) as (h0 & E). rewrite E. apply A.
Qed.
