(** For every valid part of a document, objects that are read as it. *)
From Coq Require Import Lia ZifyBool ZifyNat ZifyN Floats.SpecFloat.
From Verif Require Import Base Codec SpecCodec Package PropSet PropIds SpecPropSet Store Shapes Props Nodes Doc SpecRefs SpecValues SpecNodes SpecDoc
  SpecValid SpecFile DescProofs DescProofs2 DescProofs3 EncodeProofs WriteNodes.

(** Identifiers of objects are numbered. *)
Definition oid (k : nat) : exguid := ExGuid 1 (N.of_nat k).

Section Cell.
  Context (cell : cellid).
  Definition present (sp : space) (os : list aobject) : Prop :=
    forall a, In a os -> exists o, get_object sp (ao_id a) = Some o /\ object_is cell (describe a) o.
  (** With at most [m] objects, numbered from [n]: something that satisfies [P] and
      that in every space with these objects satisfies [R]. *)
  Definition wrote {T} (P : T -> Prop) (R : space -> T -> Prop) (m : nat) : Prop :=
    forall n, N.of_nat (n + m) < 2 ^ 32 -> exists t os, (length os <= m)%nat /\ map ao_id os = map oid (seq n (length os)) /\
      Forall ao_good os /\ P t /\ forall sp, present sp os -> R sp t.

  Lemma w_ret {T} (P : T -> Prop) (R : space -> T -> Prop) t : P t -> (forall sp, R sp t) -> wrote P R 0.
  Proof. intros H1 H2 n _. exists t, []. refine (conj _ (conj eq_refl (conj (Forall_nil _) (conj H1 _)))); [apply le_n|auto]. Qed.
  Lemma w_more {T} (P : T -> Prop) (R : space -> T -> Prop) m m' : wrote P R m -> (m <= m')%nat -> wrote P R m'.
  Proof.
    intros H L n B. destruct (H n ltac:(lia)) as (t & os & A1 & A2). exists t, os. split; [lia|exact A2].
  Qed.
  Lemma w_bind {T U} (P1 : T -> Prop) (R1 : space -> T -> Prop) m1 (P2 : U -> Prop) (R2 : space -> U -> Prop) m2 : wrote P1 R1 m1 ->
    (forall t, P1 t -> wrote P2 (fun sp u => R1 sp t -> R2 sp u) m2) -> wrote P2 R2 (m1 + m2).
  Proof.
    intros H1 H2 n B. destruct (H1 n ltac:(lia)) as (t & os & A1 & A2 & A3 & A4 & A5).
    destruct (H2 t A4 (n + length os)%nat ltac:(lia)) as (u & os' & B1 & B2 & B3 & B4 & B5).
    exists u, (os ++ os'). rewrite app_length. refine (conj _ (conj _ (conj _ (conj B4 _)))).
    - lia.
    - rewrite map_app, A2, B2, seq_app, map_app. reflexivity.
    - apply Forall_app. split; assumption.
    - intros sp H. apply B5; [|apply A5]; intros a I; apply H, in_or_app; tauto.
  Qed.
  Lemma w_map {T U} (f : T -> U) (P1 : T -> Prop) (R1 : space -> T -> Prop) (P2 : U -> Prop) (R2 : space -> U -> Prop) m : wrote P1 R1 m ->
    (forall t, P1 t -> P2 (f t)) -> (forall sp t, P1 t -> R1 sp t -> R2 sp (f t)) -> wrote P2 R2 m.
  Proof.
    intros H F G n B. destruct (H n B) as (t & os & A1 & A2 & A3 & A4 & A5). exists (f t), os.
    refine (conj A1 (conj A2 (conj A3 (conj (F t A4) _)))). intros sp Hp. apply G; [exact A4|]. now apply A5.
  Qed.
  Lemma w_impl {T} (P : T -> Prop) (R R' : space -> T -> Prop) m : wrote P R m -> (forall sp t, P t -> R sp t -> R' sp t) -> wrote P R' m.
  Proof. intros H G. exact (w_map (fun t => t) P R P R' m H (fun t p => p) G). Qed.
  Lemma w_object (Q : object -> Prop) : (forall id, id_fits id -> written cell id Q) -> wrote id_fits (fun sp id => found sp id Q) 1.
  Proof.
    intros H n B. assert (F : id_fits (oid n)) by (split; cbn; lia).
    destruct (H (oid n) F) as (a & Ea & G & X). exists (oid n), [a]. refine (conj _ (conj _ (conj _ (conj F _)))).
    - cbn. lia.
    - cbn. now rewrite Ea.
    - constructor; [exact G|constructor].
    - intros sp Hp. destruct (Hp a (or_introl eq_refl)) as (o & Eo & Ho). rewrite Ea in Eo. exists o. split; [exact Eo|now apply X].
  Qed.
  (** An object with references to what has been written. *)
  Lemma w_node {T} (P1 : T -> Prop) (R1 : space -> T -> Prop) m (Q : T -> object -> Prop) (R2 : space -> exguid -> Prop) : wrote P1 R1 m ->
    (forall t id, P1 t -> id_fits id -> written cell id (Q t)) ->
    (forall sp t id, P1 t -> R1 sp t -> found sp id (Q t) -> R2 sp id) -> wrote id_fits R2 (m + 1).
  Proof.
    intros H1 H2 H3. eapply w_bind; [exact H1|]. intros t Ht. eapply w_impl; [apply w_object; intros id Hid; exact (H2 t id Ht Hid)|].
    intros sp id _ F R. exact (H3 sp t id Ht R F).
  Qed.
  Lemma w_pair {T U} (P1 : T -> Prop) (R1 : space -> T -> Prop) m1 (P2 : U -> Prop) (R2 : space -> U -> Prop) m2 : wrote P1 R1 m1 -> wrote P2 R2 m2 ->
    wrote (fun tu => P1 (fst tu) /\ P2 (snd tu)) (fun sp tu => R1 sp (fst tu) /\ R2 sp (snd tu)) (m1 + m2).
  Proof.
    intros H1 H2. eapply w_bind; [exact H1|]. intros t Ht. apply (w_map (fun u => (t, u)) P2 R2); [exact H2| |]; cbn; auto.
  Qed.
  Definition all_good {T X} (P : T -> Prop) (xs : list X) (ts : list T) : Prop := Forall P ts /\ length ts = length xs.
  Lemma w_list {T X} (P : T -> Prop) (R : space -> T -> X -> Prop) (m : X -> nat) xs :
    (forall x, In x xs -> wrote P (fun sp t => R sp t x) (m x)) ->
    wrote (all_good P xs) (fun sp ts => Forall2 (R sp) ts xs) (sum_of m xs).
  Proof.
    induction xs as [|x xs IH]; intro H; cbn [sum_of].
    - apply w_ret with (t := []); [split; [constructor|reflexivity]|constructor].
    - eapply w_map with (f := fun tu => fst tu :: snd tu); [eapply w_pair; [apply H; now left|apply IH; intros y I; apply H; now right]| |].
      + intros (t & u) (A & B & C). cbn [fst snd] in *. split; [now constructor|cbn; now rewrite C].
      + intros sp (t & u) _ (A & B). now constructor.
  Qed.
  Lemma w_opt {T X} (P : T -> Prop) (R : space -> T -> X -> Prop) (m : X -> nat) x :
    (forall y, x = Some y -> wrote P (fun sp t => R sp t y) (m y)) ->
    wrote (if_any P) (fun sp t => both (R sp) t x) (opt_size m x).
  Proof.
    destruct x as [x|]; cbn [opt_size]; intro H.
    - apply (w_map Some P (fun sp t => R sp t x)); [now apply H| |]; cbn; auto.
    - apply w_ret with (t := None); cbn; auto.
  Qed.
End Cell.

(** ** Values *)
Lemma every_in {A} (P : A -> Prop) l : every P l <-> forall x, In x l -> P x.
Proof.
  induction l as [|x l IH]; cbn; [tauto|]. rewrite IH. split.
  - intros (H1 & H2) y [->|I]; auto.
  - intro H. split; auto.
Qed.
Lemma sum_le {A} (f g : A -> nat) l : (forall x, In x l -> (f x <= g x)%nat) -> (sum_of f l <= sum_of g l)%nat.
Proof.
  induction l as [|x l IH]; cbn; intro H; [lia|]. pose proof (H x (or_introl eq_refl)). specialize (IH (fun y I => H y (or_intror I))). lia.
Qed.
Lemma sum_in {A} (f : A -> nat) l x : In x l -> (f x <= sum_of f l)%nat.
Proof. induction l as [|y l IH]; cbn; [tauto|]. intros [->|I]; [lia|]. specialize (IH I). lia. Qed.
Lemma sum_length {A} (f : A -> nat) l : (forall x, In x l -> (1 <= f x)%nat) -> (length l <= sum_of f l)%nat.
Proof. induction l as [|y l IH]; cbn; intro H; [lia|]. pose proof (H y (or_introl eq_refl)). specialize (IH (fun z I => H z (or_intror I))). lia. Qed.
Lemma sum_scale {A} (f : A -> nat) k l : sum_of (fun x => k * f x)%nat l = (k * sum_of f l)%nat.
Proof. induction l as [|x l IH]; cbn; [lia|]. rewrite IH. lia. Qed.

Lemma has_opt_text x : if_any plain x -> N.of_nat (chars x) < 2 ^ 22 -> has (opt_rel text x).
Proof. destruct x as [s|]; cbn; intros H L; [|apply has_none]. apply has_opt. cbn. now apply e_text. Qed.
Ltac he := first [apply e_bool | apply e_inverted | apply e_charset | apply e_shape | apply e_bias | apply e_palign | apply e_tag_status
  | apply e_dword; assumption | apply e_float; assumption | apply e_byte; assumption | apply e_word; assumption | apply e_colorref; assumption
  | apply e_argb; assumption | apply e_signed; assumption | apply e_item_type; assumption | apply e_indents; assumption
  | apply e_text; [assumption|lia] | apply e_numbering; [assumption|lia]
  | apply e_dword; reflexivity | apply e_float; reflexivity | apply e_qword; reflexivity | apply e_byte; reflexivity | apply e_uuid; reflexivity].
Ltac proj := cbn [tg_definition tg_created_at tg_completed_at tg_item_status tc_children tc_filename tc_ordering_id tc_color sn_context_id
  sn_entity_guid sn_page_series sn_created_at sm_schema_read sm_schema_write sm_display_name sm_color pn_entity_guid pn_page_spaces
  pn_page_metadata pn_created_at pd_last_modified pd_cached_title pd_author pd_content pd_title pd_orientation_portrait pd_page_width
  pd_page_height pd_margin_origin_x pd_margin_origin_y pd_margin_left pd_margin_right pd_margin_top pd_margin_bottom pd_page_size pd_rtl
  pm_entity_guid pm_cached_title pm_schema_read pm_schema_write pm_page_level pm_created_at pm_is_deleted tn_last_modified tn_children
  tn_offset_horizontal tn_offset_vertical tn_alignment_in_parent tn_alignment_self ef_last_modified ef_picture_container ef_layout_max_width
  ef_layout_max_height ef_is_layout_size_set_by_user ef_text ef_text_language_code ef_alignment_in_parent ef_alignment_self ef_container
  ef_name ef_source_path ef_file_type ef_picture_width ef_picture_height ef_note_tags ef_offset_horiz ef_offset_vert pc_data pc_extension
  if_embed_type if_source_url im_last_modified im_picture_container im_layout_max_width im_layout_max_height im_is_layout_size_set_by_user
  im_language_code im_alt_text im_alignment_in_parent im_alignment_self im_filename im_displayed_page_number im_text im_text_language_code
  im_picture_width im_picture_height im_hyperlink_url im_note_tags im_offset_horiz im_offset_vert im_is_background im_iframe ei_space_width
  ei_space_height ei_start_x ei_start_y ei_height ei_width ei_offset_horiz ei_offset_vert ic_offset_horiz ic_offset_vert ic_last_modified
  ic_ink_data ic_scaling_x ic_scaling_y ik_strokes ik_bounding_box ss_path ss_bias ss_language_code ss_properties sp_aliased sp_fit_to_curve
  sp_ignore_pressure sp_pen_tip sp_raster_operation sp_transparency sp_height sp_width sp_color sp_dimensions md_object_type md_arg_count
  md_column md_align md_char md_char1 md_char2 td_label td_status td_shape td_highlight_color td_text_color td_action_item_type
  nl_last_modified nl_list_font nl_list_restart nl_list_format nl_bold nl_italic nl_language_code nl_font nl_font_size nl_font_color
  sy_charset sy_bold sy_italic sy_underline sy_strikethrough sy_superscript sy_subscript sy_font sy_font_size sy_font_color sy_highlight
  sy_next_style sy_style_id sy_paragraph_alignment sy_space_before sy_space_after sy_line_spacing_exact sy_language_code sy_math_formatting
  sy_hyperlink sy_hyperlink_protected sy_hidden sy_is_embedded_object sy_object_type rt_last_modified rt_tight_layout rt_run_formatting
  rt_run_indices rt_run_data_object rt_paragraph_style rt_space_before rt_space_after rt_line_spacing_exact rt_paragraph_alignment rt_text
  rt_is_title_time rt_is_boiler_text rt_is_title_date rt_is_title_text rt_alignment_in_parent rt_alignment_self rt_language_code rt_rtl
  rt_note_tags oe_created_at oe_last_modified oe_children oe_child_level oe_contents oe_list_contents oe_list_spacing oe_author_original
  oe_author_most_recent oe_rtl oe_is_deletable oe_is_selectable oe_is_title_text gr_last_modified gr_children gr_child_level ou_last_modified
  ou_children ou_child_level ou_layout_max_height ou_layout_max_width ou_layout_reserved_width ou_layout_minimum_outline_width
  ou_layout_tight_alignment ou_is_layout_size_set_by_user ou_offset_horiz ou_offset_vert ou_list_spacing ou_indent_distance
  ou_alignment_in_parent ou_alignment_self ou_is_deletable ou_is_title_date ou_is_selectable ou_is_title_text ou_is_read_only
  ou_descendants_cannot_be_moved ou_tight_layout ce_last_modified ce_contents ce_layout_max_width ce_indent_distance ce_background_color
  ta_last_modified ta_rows ta_row_count ta_col_count ta_cols_locked ta_col_widths ta_borders_visible ta_alignment_in_parent ta_alignment_self
  ta_note_tags ro_last_modified ro_cells].
Ltac hv := proj; first [apply has_none | apply has_default | apply has_alignment | apply has_media | apply has_character; assumption
  | apply has_def; he | apply has_req; he
  | apply has_opt_text; [assumption|lia]
  | apply has_opt; eapply if_any_impl; [|eassumption]; intros ? ?; he | apply has_opt; he].

Section Parts.
  Context (cell : cellid).
  Notation wrote := (wrote cell).
  Notation id_wrote := (WriteProofs.wrote cell id_fits).

  (** ** Note tags, lists, files, images *)
  Lemma w_tag t : tag_ok t -> N.of_nat (tag_size t) < 2 ^ 21 -> wrote tag_fits (fun sp d => tag_is sp d t) 1.
  Proof.
    destruct t as [completed status def]. intros (C & D) L. unfold tag_size in L. cbn [nt_completed_at nt_item_status nt_definition] in *.
    assert (F : forall x, if_any id_fits x -> tag_fits (TagData x 0 completed status)).
    { intros x Hx. refine (conj eq_refl (conj _ _)); cbn.
      - intros n ->. exact C.
      - intros y ->. exact Hx. }
    destruct def as [def|].
    - destruct D as (D1 & D2 & D3 & D4). cbn in L.
      apply (w_map cell (fun id => TagData (Some id) 0 completed status) id_fits (fun sp id => found sp id (fun o => tag_definition_object o def))).
      + apply w_object. intros id Hid. apply w_tag_definition; [exact Hid|..]; hv.
      + intros id Hid. now apply F.
      + intros sp id _ H. refine (conj eq_refl (conj eq_refl _)). exact H.
    - eapply w_more; [|apply Nat.le_0_l]. apply w_ret with (t := TagData None 0 completed status); [now apply F|].
      intro sp. refine (conj eq_refl (conj eq_refl _)). exact I.
  Qed.
  Lemma w_tags l : every tag_ok l -> N.of_nat (sum_of tag_size l) < 2 ^ 21 ->
    wrote tags_ok (fun sp ds => Forall2 (tag_is sp) ds l) (sum_of tag_size l).
  Proof.
    intros H L. rewrite every_in in H.
    assert (K : (length l <= sum_of tag_size l)%nat) by (apply sum_length; intros; unfold tag_size; lia).
    eapply w_map with (f := fun x => x); [apply (w_list cell tag_fits (fun sp d t => tag_is sp d t) tag_size)| |].
    - intros x I. pose proof (sum_in tag_size l x I). eapply w_more; [apply w_tag; [now apply H|lia]|unfold tag_size; lia].
    - intros ts (A & B). split; [exact A|lia].
    - auto.
  Qed.
  Lemma w_list_data l : list_ok l -> N.of_nat (list_size l) < 2 ^ 21 -> id_wrote (fun sp id => list_is sp id l) 1.
  Proof.
    intros (A1 & A2 & A3 & A4 & A5 & A6) L. unfold list_size in L.
    eapply w_impl.
    - apply w_object. intros id Hid.
      apply (w_list_info cell id (NumberList 0 (li_list_font l) (li_list_restart l) (li_list_format l) (li_bold l) (li_italic l) None (li_font l) (li_font_size l) (li_font_color l)));
        [exact Hid|..]; hv.
    - intros sp id _ (o & Eo & Ho). exists o. split; [exact Eo|]. eexists. split; [exact Ho|].
      refine (conj eq_refl (conj eq_refl (conj eq_refl (conj eq_refl (conj eq_refl (conj eq_refl (conj eq_refl eq_refl))))))).
  Qed.

  Lemma w_iframe_data f : iframe_ok f -> N.of_nat (iframe_size f) < 2 ^ 21 -> id_wrote (fun sp id => iframe_is sp id f) 1.
  Proof.
    intros (A1 & A2) L. unfold iframe_size in L. apply w_object. intros id Hid. apply w_iframe; [exact Hid|..]; hv.
  Qed.
  Lemma w_iframes l : every iframe_ok l -> N.of_nat (sum_of iframe_size l) < 2 ^ 21 ->
    wrote ids_ok (fun sp ids => Forall2 (iframe_is sp) ids l) (sum_of iframe_size l).
  Proof.
    intros H L. rewrite every_in in H.
    assert (K : (length l <= sum_of iframe_size l)%nat) by (apply sum_length; intros; unfold iframe_size; lia).
    eapply w_map with (f := fun x => x); [apply (w_list cell id_fits iframe_is iframe_size)| |].
    - intros x I. pose proof (sum_in iframe_size l x I). eapply w_more; [apply w_iframe_data; [now apply H|lia]|unfold iframe_size; lia].
    - intros ts (A & B). split; [exact A|lia].
    - auto.
  Qed.
  Lemma w_file_data f : file_ok f -> N.of_nat (file_size f) < 2 ^ 21 -> id_wrote (fun sp id => file_is sp id f) (1 + file_size f).
  Proof.
    intros (A1 & A2 & A3 & A4 & A5 & A6 & A7) L. unfold file_size in *.
    eapply w_more; [eapply w_node with (Q := fun t o => file_node o (EmbeddedFileData 0 None (fi_layout_max_width f) (fi_layout_max_height f) false None None None None (fst t) (fi_filename f) None
               (fi_file_type f) None None (snd t) (fi_offset_horizontal f) (fi_offset_vertical f))); [eapply w_pair|..]|].
    - apply (w_object cell (fun o => file_container o (fi_data f))). intros id Hid. now apply w_file_container.
    - apply (w_tags _ A7). lia.
    - intros (c & ts) id (Hc & Ht) Hid. cbn [fst snd] in *.
      apply w_file; [exact Hid|..]; try hv; try exact I; try assumption.
    - intros sp (c & ts) id _ (Rc & Rt) (o & Eo & Ho). exists o. split; [exact Eo|]. eexists. split; [exact Ho|]. cbn [fst snd] in *.
      refine (conj eq_refl (conj eq_refl (conj eq_refl (conj eq_refl (conj eq_refl (conj eq_refl (conj Rc Rt))))))).
    - lia.
  Qed.
  Lemma w_image_data g : image_ok g -> N.of_nat (image_size g) < 2 ^ 21 -> id_wrote (fun sp id => image_is sp id g) (1 + image_size g).
  Proof.
    intros (A1 & A2 & A3 & A4 & A5 & A6 & A7 & A8 & A9 & A10 & A11 & A12 & A13 & A14 & A15 & A16 & A17) L. unfold image_size in *.
    assert (P : wrote (if_any id_fits) (fun sp c => match c with
        | None => ig_data g = None /\ ig_extension g = None
        | Some c => found sp c (fun co => exists p, picture_object co p /\ ig_data g = Some (pc_data p) /\ ig_extension g = pc_extension p)
        end) 1).
    { destruct (ig_data g) as [d|].
      - apply (w_map cell Some id_fits (fun sp c => found sp c (fun co => picture_object co (PictureData d (ig_extension g))))).
        + apply w_object. intros id Hid. apply w_picture; [exact Hid|exact A1|hv].
        + auto.
        + intros sp c _ (o & Eo & Ho). exists o. split; [exact Eo|]. eexists. split; [exact Ho|]. split; reflexivity.
      - eapply w_more; [|apply Nat.le_0_l]. apply w_ret with (t := None); [exact I|]. intros _. split; [reflexivity|]. now apply A3. }
    eapply w_more; [eapply w_node with (Q := fun t o => image_object o (ImageData None (fst t) (ig_layout_max_width g) (ig_layout_max_height g) false None (ig_alt_text g) (ig_alignment_in_parent g)
               (ig_alignment_self g) (ig_filename g) (ig_displayed_page_number g) (ig_text g) (ig_text_language_code g) (ig_picture_width g)
               (ig_picture_height g) (ig_hyperlink_url g) (fst (snd t)) (ig_offset_horizontal g) (ig_offset_vertical g) (ig_is_background g) (snd (snd t)))); [eapply w_pair; [exact P|eapply w_pair]|..]|].
    - apply (w_tags _ A16). lia.
    - apply (w_iframes _ A17). lia.
    - intros (c & ts & fs) id (Hc & Ht & Hf) Hid. cbn [fst snd] in *.
      apply w_image; [exact Hid|..]; try hv; try assumption.
    - intros sp (c & ts & fs) id _ (Rc & Rt & Rf) (o & Eo & Ho). exists o. split; [exact Eo|]. eexists. split; [exact Ho|]. cbn [fst snd] in *.
      refine (conj Rc (conj eq_refl (conj eq_refl (conj eq_refl (conj eq_refl (conj eq_refl (conj eq_refl (conj eq_refl (conj eq_refl (conj eq_refl
        (conj eq_refl (conj eq_refl (conj eq_refl (conj eq_refl (conj eq_refl (conj eq_refl (conj Rt Rf))))))))))))))))).
    - lia.
  Qed.

  (** ** Ink *)
  Lemma coordinates scale pts : Forall (fun p => coordinate scale (ip_x p) /\ coordinate scale (ip_y p)) pts ->
    exists xs ys, Forall i64 xs /\ Forall i64 ys /\ length xs = length pts /\ length ys = length pts /\
      forall i p, nth_error pts i = Some p -> exists x y, nth_error xs i = Some x /\ nth_error ys i = Some y /\
        ip_x p = times (factor scale) (rounded x) /\ ip_y p = times (factor scale) (rounded y).
  Proof.
    induction 1 as [|p pts ((x & Ix & Ex) & y & Iy & Ey) _ (xs & ys & A1 & A2 & A3 & A4 & A5)].
    - exists [], []. refine (conj (Forall_nil _) (conj (Forall_nil _) (conj eq_refl (conj eq_refl _)))). intros i p E. destruct i; discriminate E.
    - exists (x :: xs), (y :: ys). refine (conj (Forall_cons _ Ix A1) (conj (Forall_cons _ Iy A2) (conj _ (conj _ _)))); [cbn; lia|cbn; lia|].
      intros [|i] q E; cbn [nth_error] in *; [|now apply A5]. injection E as <-. exists x, y. auto.
  Qed.
  Lemma points_of scale xs ys pts : length xs = length pts -> length ys = length pts ->
      (forall i p, nth_error pts i = Some p -> exists x y, nth_error xs i = Some x /\ nth_error ys i = Some y /\
        ip_x p = times (factor scale) (rounded x) /\ ip_y p = times (factor scale) (rounded y)) ->
    points (xs ++ ys) [dimension_x; dimension_y] scale scale pts.
  Proof.
    intros Lx Ly H. exists 0%nat, 1%nat. assert (E : (length (xs ++ ys) / length [dimension_x; dimension_y] = length pts)%nat).
    { rewrite app_length. cbn [length]. rewrite Lx, Ly. replace (length pts + length pts)%nat with (length pts * 2)%nat by lia. now apply Nat.div_mul. }
    cbv zeta. rewrite E. refine (conj _ (conj _ (conj eq_refl _))).
    - split; [exists dimension_x; split; reflexivity|]. intros j d J. lia.
    - split; [exists dimension_y; split; reflexivity|]. intros j d J. replace j with 0%nat by lia. intros [= <-]. discriminate.
    - intros i p N. destruct (H i p N) as (x & y & X & Y & Z). exists x, y.
      assert (Ii : (i < length pts)%nat) by (apply nth_error_Some; congruence).
      rewrite Nat.mul_0_r, Nat.mul_1_r. cbn [plus]. rewrite nth_error_app1 by lia. rewrite nth_error_app2 by lia.
      replace (length pts + i - length xs)%nat with i by lia. auto.
  Qed.
  Lemma w_stroke_data scale s : stroke_ok scale s -> N.of_nat (stroke_size s) < 2 ^ 21 ->
    id_wrote (fun sp id => stroke_is sp scale scale id s) 2.
  Proof.
    intros (A1 & A2 & A3 & A4 & A5 & A6) L. unfold stroke_size in L. destruct (coordinates _ _ A1) as (xs & ys & X1 & X2 & X3 & X4 & X5).
    apply (w_node cell id_fits (fun sp c => found sp c (fun o => stroke_properties o
             (StrokeProps false false false (st_pen_tip s) None (st_transparency s) (st_height s) (st_width s) (st_color s) [dimension_x; dimension_y]))) 1
           (fun c o => stroke_node o (InkStrokeData (xs ++ ys) IbDrawing None c))).
    - apply w_object. intros id Hid. apply w_stroke_properties; [exact Hid|..]; try hv. apply has_def, e_dimensions.
    - intros c id Hc Hid. apply w_stroke; [exact Hid|..]; try hv; [|exact Hc]. apply has_req, e_path; [apply Forall_app; split; assumption|].
      cbn [ss_path]. rewrite app_length. lia.
    - intros sp c id _ (po & Ep & Hp) (o & Eo & Ho). exists o. split; [exact Eo|]. eexists. split; [exact Ho|]. exists po. split; [exact Ep|].
      eexists. split; [exact Hp|]. cbn [ss_path sp_dimensions].
      refine (conj (points_of scale xs ys _ X3 X4 X5) (conj eq_refl (conj eq_refl (conj eq_refl (conj eq_refl eq_refl))))).
  Qed.
  Lemma w_drawing scale ss b : every (stroke_ok scale) ss -> if_any (box_ok scale) b -> N.of_nat (sum_of stroke_size ss) < 2 ^ 21 ->
    id_wrote (fun sp id => drawing_is sp scale scale id ss b) (2 * sum_of stroke_size ss + 1).
  Proof.
    intros A B L. rewrite every_in in A.
    assert (K : (length ss <= sum_of stroke_size ss)%nat) by (apply sum_length; intros; unfold stroke_size; lia).
    assert (X : exists nb, if_any (fun '(a, b, c, e) => u32 a /\ u32 b /\ u32 c /\ u32 e) nb /\ both (box_is scale scale) nb b).
    { destruct b as [b|]; [|exists None; split; exact I]. destruct B as (x & y & z & w & U1 & U2 & U3 & U4 & Bx). exists (Some (x, y, z, w)). split; [cbn; auto|exact Bx]. }
    destruct X as (nb & U & Bx). rewrite <- sum_scale.
    eapply w_node with (Q := fun ids o => ink_node o (InkData ids nb)); [apply (w_list cell id_fits (fun sp id s => stroke_is sp scale scale id s) (fun s => 2 * stroke_size s)%nat)|..].
    - intros s I. pose proof (sum_in stroke_size ss s I). eapply w_more; [apply w_stroke_data; [now apply A|lia]|unfold stroke_size; lia].
    - intros ids id (F & E) Hid. apply (w_ink_node cell id (InkData ids nb)); [exact Hid|split; [exact F|cbn [ik_strokes]; lia]|].
      cbn [ik_bounding_box]. destruct nb as [[[[x y] z] w]|]; [|apply has_none]. apply has_opt. cbn. apply e_dwords; [|reflexivity].
      destruct U as (U1 & U2 & U3 & U4). repeat apply Forall_cons; try assumption. apply Forall_nil.
    - intros sp ids id _ R (o & Eo & Ho). exists o. split; [exact Eo|]. eexists. split; [exact Ho|]. split; [exact R|exact Bx].
  Qed.
  Lemma w_ink_data i : ink_ok i -> N.of_nat (ink_size i) < 2 ^ 21 -> id_wrote (fun sp id => ink_is sp id i) (2 * ink_size i).
  Proof.
    intros (scale & A1 & A2 & A3 & A4 & A5) L. unfold ink_size in *.
    eapply w_more; [eapply w_node with (Q := fun c o => ink_container o (InkContainerData (in_offset_horizontal i) (in_offset_vertical i) None (Some c) scale scale));
      [apply (w_drawing scale _ _ A2 A3); lia|..]|].
    - intros c id Hc Hid. apply (w_ink_container cell id (InkContainerData (in_offset_horizontal i) (in_offset_vertical i) None (Some c) scale scale)); [exact Hid|..];
        try hv; [exact Hc|reflexivity].
    - intros sp c id _ R (o & Eo & Ho). exists o. split; [exact Eo|]. eexists. split; [exact Ho|]. refine (conj eq_refl (conj eq_refl _)). exact R.
    - lia.
  Qed.
End Parts.
