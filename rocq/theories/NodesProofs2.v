(** Each node parser succeeds exactly on the objects of SpecNodes.v. *)
From Coq Require Import Lia ZifyBool ZifyNat ZifyN.
From Verif Require Import Base BaseProofs Codec Package PropSet PropIds Store Shapes Props Nodes Doc
  SpecCodec SpecValues ValuesProofs SpecNodes NodesProofs.

(** Note tags. *)
Lemma tag_iff o tid set t :
  (let! i := nested_object P_NoteTags tid o set in tag_parse_data i) = Ok t <-> tag o tid set t.
Proof.
  unfold tag. rewrite bind_ok. change P_NoteTags with 0x40003489.
  enough (H : forall i, tag_parse_data i = Ok t <->
    reference i 0x20003488 (tg_definition t) /\ required i 0x1400346E dword (tg_created_at t) /\
    optional i 0x1400346F dword (tg_completed_at t) /\ required i 0x10003470 status_bits (tg_item_status t)).
  { split; intros (i & Hi & Ht); exists i; (split; [exact Hi|now apply H]). }
  intros i. unfold tag_parse_data. split.
  - intros H. apply bind_ok in H as (a & Ha & H). apply bind_ok in H as (b & Hb & H).
    apply bind_ok in H as (c & Hc & H). apply bind_ok in H as (e & He & H). injection H as <-. cbn.
    apply reference_iff in Ha. apply (required_of _ _ _ _ _ (time_iff _ _)) in Hb.
    apply time_iff in Hc. apply (required_of _ _ _ _ _ (status_iff _)) in He. auto.
  - intros (Ha & Hb & Hc & He).
    apply (bind_intro _ _ (tg_definition t)); [now apply reference_iff|].
    apply (bind_intro _ _ (tg_created_at t)); [now apply (required_of _ _ _ _ _ (time_iff _ _))|].
    apply (bind_intro _ _ (tg_completed_at t)); [now apply time_iff|].
    apply (bind_intro _ _ (tg_item_status t)); [now apply (required_of _ _ _ _ _ (status_iff _))|].
    now destruct t.
Qed.
Lemma values_conv v x : to_property_values v = Some x <-> v = VPropertyValues (fst x) (snd x).
Proof.
  destruct x as [i l]. destruct v; cbn; split; intros E; try discriminate;
    (injection E; intros; subst; reflexivity).
Qed.
Lemma tags_iff o l : dflt [] (tags_parse o) = Ok l <-> tags o l.
Proof.
  rewrite dflt_ok. unfold tags_parse, tags, get_prop, stored. change P_NoteTags with 0x40003489.
  destruct (oprops_get 0x40003489 (ob_props o)) as [v|] eqn:Hs.
  - destruct (to_property_values v) as [[i sets]|] eqn:Hv.
    + apply values_conv in Hv. cbn in Hv. subst v. cbn [rbind opt_map_res to_property_values ok_or].
      assert (Hm : forall l, map_res (fun props => let! t := nested_object 0x40003489 i o props in tag_parse_data t) sets = Ok l <->
                        Forall2 (tag o i) sets l).
      { intros l'. rewrite map_res_ok. clear Hs. split; intros H; (induction H as [|x y xs ys Hx Hl IH]; [constructor|]);
          (constructor; [now apply tag_iff|exact IH]). }
      split.
      * intros [H|(H & _)].
        { apply bind_ok in H as (ts & Ht & Ho); injection Ho as ->. exists i, sets. split; [reflexivity|now apply Hm]. }
        { apply bind_ok in H as (ts & _ & E). discriminate E. }
      * intros (i' & s' & [= <- <-] & H). left. apply (bind_intro _ _ l); [now apply Hm|reflexivity].
    + cbn [rbind opt_map_res]. rewrite Hv. split; [intros [H|(H & _)]; discriminate H|].
      intros (i' & s' & -> & _). discriminate Hv.
  - cbn. split; [intros [E|(_ & ->)]; [discriminate E|reflexivity]|auto].
Qed.

(** The lemma that describes a reader of an optional property. *)
Ltac iff_of r :=
  lazymatch r with
  | prop_bool ?i ?o => constr:(bool_iff i o)
  | prop_u8 ?i ?o => constr:(u8_iff i o)
  | prop_u16 ?i ?o => constr:(u16_iff i o)
  | prop_u32 ?i ?o => constr:(u32_iff i o)
  | prop_f32 ?i ?o => constr:(f32_iff i o)
  | time_parse ?i ?o => constr:(time_iff i o)
  | timestamp_parse ?i ?o => constr:(u64_iff i o)
  | prop_vec ?i ?o => constr:(vec_iff i o)
  | prop_string ?i ?o => constr:(string_iff i o)
  | author_parse ?o => constr:(string_iff P_Author o)
  | prop_guid ?i ?o => constr:(guid_iff_ i o)
  | rmap i32_of (prop_u32 ?i ?o) => constr:(signed_iff i o)
  | rmap negb (prop_bool ?i ?o) => constr:(inverted_iff i o)
  | prop_vec_u32 ?i ?o => constr:(dwords_iff i o)
  | charset_parse ?i ?o => constr:(charset_iff i o)
  | page_size_parse ?i ?o => constr:(page_size_iff i o)
  | rbind (prop_u16 ?i ?o) (fun v => opt_map_res shape_parse v) => constr:(shape_iff i o)
  | rbind (prop_u8 ?i ?o) (fun v => opt_map_res ink_bias_of v) => constr:(bias_iff i o)
  | rbind (prop_vec ?i ?o) (fun v => opt_map_res decode_signed v) => constr:(path_iff i o)
  | rbind (prop_vec_u16 ?i ?o) (fun v => opt_map_res list_format_of v) => constr:(numbering_iff i o)
  | paragraph_alignment_parse ?o => constr:(align_iff o)
  | color_parse ?i ?o => constr:(argb_iff i o)
  | color_ref_parse ?i ?o => constr:(colorref_iff i o)
  | action_item_status_parse ?o => constr:(status_iff o)
  | note_tag_status_parse ?o => constr:(tag_status_iff o)
  | action_item_type_parse ?o => constr:(item_type_iff o)
  | indent_distance_parse ?o => constr:(indents_iff o)
  | rmap (skip 1) (prop_vec ?i ?o) => constr:(flags_iff i o)
  | rmap (fun d => u32_chunks (skip 1 d)) (prop_vec ?i ?o) => constr:(widths_iff i o)
  | rmap (fun s => replace_caret 74 44 (replace_caret 77 43 s)) (prop_string ?i ?o) => constr:(name_iff i o)
  end.
Ltac rel_of r :=
  lazymatch r with
  | assert_kind ?k ?o => constr:(fun u => kind_iff k o _ u eq_refl)
  | flag_of ?i ?o => constr:(flag_iff i o)
  | refs_of ?i ?o => constr:(children_iff i o)
  | prop_object ?i ?o => constr:(reference_iff i o)
  | layout_alignment_parse ?i ?o => constr:(layout_iff i o)
  | file_type_parse ?o => constr:(media_iff o)
  | prop_char ?i ?o => constr:(char_iff i o)
  | ink_dimensions_parse ?i ?o => constr:(dims_iff i o)
  | req (prop_objects ?i ?o) => constr:(references_iff i o)
  | req (prop_object ?i ?o) => constr:(some_reference_iff i o)
  | dflt [] (prop_spaces ?i ?o) => constr:(spaces_iff i o)
  | req ?q => let l := iff_of q in constr:(fun a => required_of q _ _ _ a l)
  | dflt [] (tags_parse ?o) => constr:(tags_iff o)
  | dflt ?d ?q => let l := iff_of q in constr:(fun a => defaulted_of q _ _ _ d a l)
  | ?q => let l := iff_of q in l
  end.
Ltac fwd H :=
  repeat (let E := fresh "E" in apply bind_ok in H as (? & E & H);
          lazymatch type of E with ?r = Ok _ => try (let l := rel_of r in apply l in E) end).
Ltac lit := match goal with |- context [?f ?o ?id] =>
  lazymatch type of id with N => let i := eval vm_compute in id in change (f o id) with (f o i) end end.
Ltac done_with :=
  match goal with
  | E : ob_jcid _ = _ |- ob_jcid _ = _ => exact E
  | E : optional _ _ _ ?x |- optional _ _ _ ?x => exact E
  | E : required _ _ _ ?x |- required _ _ _ ?x => exact E
  | E : defaulted _ _ _ _ ?x |- defaulted _ _ _ _ ?x => exact E
  | E : children _ _ ?x |- children _ _ ?x => exact E
  | E : spaces _ _ ?x |- spaces _ _ ?x => exact E
  | E : reference _ _ ?x |- reference _ _ ?x => exact E
  | E : prop_object _ _ = Ok ?x |- reference _ _ ?x => exact E
  | E : references _ _ ?x |- references _ _ ?x => exact E
  | E : tags _ ?x |- tags _ ?x => exact E
  end.
Ltac bwd_step :=
  lazymatch goal with
  | |- rbind (assert_kind ?k ?o) _ = Ok _ =>
    apply (bind_intro _ _ tt); [apply (kind_iff k o _ tt eq_refl); eassumption|cbv beta]
  | |- rbind ?r _ = Ok _ =>
    eapply bind_intro; [let l := rel_of r in apply l; try lit; eassumption|cbv beta]
  end.
Ltac conj_all := repeat match goal with |- _ /\ _ => split end.
Ltac split_hyps := repeat match goal with H : _ /\ _ |- _ => destruct H end.
Ltac node parse spec :=
  unfold parse, spec;
  split;
  [ let H := fresh "H" in intro H; fwd H; injection H as <-; cbn; conj_all; try done_with
  | let H := fresh "H" in intro H; split_hyps; repeat bwd_step;
    try (match goal with |- Ok _ = Ok ?d => destruct d; reflexivity end) ].

Lemma section_node_ok o d : section_node_parse o = Ok d <-> section_node o d.
Proof.
  node section_node_parse section_node; [reflexivity|].
  destruct d; cbn in *. now subst.
Qed.
Lemma section_meta_ok o d : section_metadata_parse o = Ok d <-> section_meta o d.
Proof. node section_metadata_parse section_meta. Qed.
Lemma series_ok o d : page_series_node_parse o = Ok d <-> series_node o d.
Proof. node page_series_node_parse series_node. Qed.
Lemma title_ok o d : title_node_parse o = Ok d <-> title_object o d.
Proof. node title_node_parse title_object. Qed.
Lemma iframe_ok o d : iframe_node_parse o = Ok d <-> iframe_object o d.
Proof. node iframe_node_parse iframe_object. Qed.
Lemma embedded_ink_ok o d : embedded_ink_parse o = Ok d <-> embedded_ink_run o d.
Proof. node embedded_ink_parse embedded_ink_run. Qed.
Lemma ink_container_ok o d : ink_container_parse o = Ok d <-> ink_container o d.
Proof.
  unfold ink_container_parse, ink_container. split.
  - intros H. fwd H. injection H as <-. cbn. conj_all; try done_with.
  - intros H. split_hyps.
    bwd_step. bwd_step. bwd_step. bwd_step. bwd_step.
    apply (bind_intro _ _ (ic_scaling_x d)); [now apply f32_iff|].
    apply (bind_intro _ _ (ic_scaling_y d)); [now apply f32_iff|]. now destruct d.
Qed.
Lemma stroke_ok o d : ink_stroke_node_parse o = Ok d <-> stroke_node o d.
Proof. node ink_stroke_node_parse stroke_node. Qed.
Lemma stroke_properties_ok o d : stroke_properties_parse o = Ok d <-> stroke_properties o d.
Proof. node stroke_properties_parse stroke_properties. Qed.
Lemma math_ok o d : math_data_parse o = Ok d <-> math_object_data o d.
Proof. node math_data_parse math_object_data. Qed.
Lemma tag_definition_ok o d : tag_definition_parse o = Ok d <-> tag_definition_object o d.
Proof. node tag_definition_parse tag_definition_object. Qed.
Lemma list_ok o d : number_list_parse o = Ok d <-> list_object o d.
Proof. node number_list_parse list_object. Qed.
Lemma style_ok o d : style_parse o = Ok d <-> style_object o d.
Proof. node style_parse style_object. Qed.
Lemma element_ok o d : outline_element_node_parse o = Ok d <-> element_object o d.
Proof. node outline_element_node_parse element_object. Qed.
Lemma group_ok o d : outline_group_node_parse o = Ok d <-> group_object o d.
Proof. node outline_group_node_parse group_object. Qed.
Lemma outline_ok o d : outline_node_parse o = Ok d <-> outline_object o d.
Proof. node outline_node_parse outline_object. Qed.
Lemma cell_ok o d : table_cell_node_parse o = Ok d <-> cell_object o d.
Proof. node table_cell_node_parse cell_object. Qed.
Lemma row_ok o d : table_row_node_parse o = Ok d <-> row_object o d.
Proof. node table_row_node_parse row_object. Qed.
Lemma toc_ok o d : toc_parse o = Ok d <-> toc_object o d.
Proof. node toc_parse toc_object. Qed.
Lemma table_ok o d : table_node_parse o = Ok d <-> table_object o d.
Proof. node table_node_parse table_object. Qed.
Lemma image_ok o d : image_node_parse o = Ok d <-> image_object o d.
Proof. node image_node_parse image_object. Qed.
Lemma file_node_ok o d : embedded_file_node_parse o = Ok d <-> file_node o d.
Proof. node embedded_file_node_parse file_node. Qed.
Lemma file_container_ok o bs : embedded_file_container_parse o = Ok bs <-> file_container o bs.
Proof.
  unfold embedded_file_container_parse, file_container. rewrite bind_ok. split.
  - intros (u & Hu & H). apply (kind_iff _ _ _ _ eq_refl) in Hu. split; [exact Hu|].
    destruct (ob_file o); [now injection H as ->|discriminate H].
  - intros (Hk & Hf). exists tt. split; [now apply (kind_iff _ _ _ _ eq_refl)|]. now rewrite Hf.
Qed.
Lemma picture_ok o d : picture_container_parse o = Ok d <-> picture_object o d.
Proof.
  unfold picture_container_parse, picture_object.
  assert (E : (negb (ob_jcid o =? kind_jcid K_PictureContainer) && negb (ob_jcid o =? kind_jcid K_XpsContainer)) = false
              <-> ob_jcid o = 0x00080039 \/ ob_jcid o = 0x0008003A).
  { change (kind_jcid K_PictureContainer) with 0x00080039. change (kind_jcid K_XpsContainer) with 0x0008003A.
    destruct (N.eqb_spec (ob_jcid o) 0x00080039), (N.eqb_spec (ob_jcid o) 0x0008003A); cbn; split; intros; auto;
      try discriminate. destruct H; congruence. }
  destruct (negb _ && negb _) eqn:Hk.
  - split; [discriminate|]. intros (Hj & _). apply E in Hj. discriminate Hj.
  - split.
    + intros H. apply bind_ok in H as (x & Hx & [= <-]). cbn. apply string_iff in Hx.
      split; [now apply E|]. split; [|exact Hx]. destruct (ob_file o); reflexivity.
    + intros (_ & Hd & Hx). apply (bind_intro _ _ (pc_extension d)); [now apply string_iff|].
      destruct d as [dd xx]; cbn in *. destruct (ob_file o); now rewrite Hd.
Qed.
Lemma manifest_ok o p : page_manifest_parse o = Ok p <-> manifest_node o p.
Proof.
  unfold page_manifest_parse, manifest_node. rewrite bind_ok. split.
  - intros (u & Hu & H). apply (kind_iff _ _ _ _ eq_refl) in Hu. split; [exact Hu|].
    apply bind_ok in H as (x & Hx & H). destruct x as [[|q r]|]; try discriminate H. injection H as <-.
    exists r. exact Hx.
  - intros (Hk & r & Hr). exists tt. split; [now apply (kind_iff _ _ _ _ eq_refl)|].
    apply (bind_intro _ _ (Some (p :: r))); [exact Hr|reflexivity].
Qed.
Lemma level_iff o x : (let! l := dflt 0 (prop_u32 P_PageLevel o) in Ok (i32_of l)) = Ok x <->
  defaulted o 0x14001DFF signed 0%Z x.
Proof.
  rewrite <- (defaulted_of _ _ _ _ _ _ (signed_iff P_PageLevel o)). unfold rmap.
  rewrite bind_ok, dflt_ok. destruct (prop_u32 P_PageLevel o) as [[n|]| | |]; cbn; split.
  - intros (a & [= <-] & [= <-]). auto.
  - intros [[= <-]|([=] & _)]. eauto.
  - intros (a & [= <-] & [= <-]). right. split; reflexivity.
  - intros [[=]|(_ & ->)]. exists 0. split; reflexivity.
  - intros (a & [=] & _).
  - intros [[=]|([=] & _)].
  - intros (a & [=] & _).
  - intros [[=]|([=] & _)].
  - intros (a & [=] & _).
  - intros [[=]|([=] & _)].
Qed.
Lemma page_meta_ok o d : page_metadata_parse o = Ok d <-> page_meta o d.
Proof.
  unfold page_metadata_parse, page_meta. split.
  - intros H. apply bind_ok in H as (? & E0 & H). apply bind_ok in H as (? & E1 & H).
    apply bind_ok in H as (? & E2 & H). apply bind_ok in H as (? & E3 & H).
    apply bind_ok in H as (? & E4 & H). apply bind_ok in H as (l & E5 & H).
    apply bind_ok in H as (? & E6 & H). apply bind_ok in H as (? & E7 & H). injection H as <-. cbn.
    apply (kind_iff _ _ _ _ eq_refl) in E0. apply (required_of _ _ _ _ _ (guid_iff_ _ _)) in E1.
    apply (required_of _ _ _ _ _ (string_iff _ _)) in E2. apply u32_iff in E3. apply u32_iff in E4.
    apply (required_of _ _ _ _ _ (u64_iff _ _)) in E6. apply flag_iff in E7.
    assert (E : defaulted o 0x14001DFF signed 0%Z (i32_of l)) by (apply level_iff; now rewrite E5).
    conj_all; try done_with.
  - intros (E0 & E1 & E2 & E3 & E4 & E5 & E6 & E7). apply level_iff in E5. apply bind_ok in E5 as (l & E5 & El).
    bwd_step. bwd_step. bwd_step. bwd_step. bwd_step. apply (bind_intro _ _ l); [exact E5|].
    bwd_step. bwd_step. injection El as El. destruct d; cbn in *. now rewrite El.
Qed.
Lemma page_ok o d : page_node_parse o = Ok d <-> page_object o d.
Proof.
  unfold page_node_parse, page_object. split.
  - intros H. fwd H. injection H as <-. cbn. conj_all; try done_with. eexists. split; [eassumption|reflexivity].
  - intros H. split_hyps. destruct H4 as (ts & Ht & He).
    repeat bwd_step. destruct d; cbn in *. now rewrite He.
Qed.
Lemma ink_node_ok o d : ink_data_node_parse o = Ok d <-> ink_node o d.
Proof.
  unfold ink_data_node_parse, ink_node. split.
  - intros H. apply bind_ok in H as (u & Hu & H). apply bind_ok in H as (ss & Hs & H).
    apply bind_ok in H as (box & Hb & [= <-]). cbn.
    apply (kind_iff _ _ _ _ eq_refl) in Hu. apply references_iff in Hs. apply dwords_iff in Hb.
    split; [exact Hu|]. split; [exact Hs|]. exists box. split; [exact Hb|].
    destruct box as [[|a [|b [|c [|e [|f l]]]]]|];
      try (right; split; [intros (? & ? & ? & ? & E); discriminate E|reflexivity]).
    left. exists a, b, c, e. auto.
  - intros (Hk & Hs & box & Hb & Hc). bwd_step. bwd_step.
    apply (bind_intro _ _ box); [now apply dwords_iff|]. destruct d as [ss bb]; cbn in *.
    destruct Hc as [(a & b & c & e & -> & ->)|(Hn & ->)]; [reflexivity|].
    destruct box as [[|a [|b [|c [|e [|f l]]]]]|]; try reflexivity.
    exfalso. apply Hn. eauto.
Qed.
Lemma text_iff o x :
  (let! u := prop_string P_RichEditTextUnicode o in
   match u with None => prop_ascii P_TextExtendedAscii o | t => Ok t end) = Ok x <-> paragraph_text o x.
Proof.
  unfold paragraph_text. rewrite bind_ok. split.
  - intros (u & Hu & H). apply string_iff in Hu. unfold optional in Hu. change P_RichEditTextUnicode with 0x1C001C22 in Hu.
    destruct (stored o 0x1C001C22) as [v|].
    + destruct Hu as (s & Hs & ->). injection H as <-. eauto.
    + subst u. now apply vec_iff.
  - intros H. destruct (stored o 0x1C001C22) as [v|] eqn:Hs.
    + destruct H as (s & Ht & ->). exists (Some s). split; [|reflexivity]. apply string_iff. unfold optional.
      change P_RichEditTextUnicode with 0x1C001C22. rewrite Hs. eauto.
    + exists None. split; [|now apply vec_iff]. apply string_iff. unfold optional.
      change P_RichEditTextUnicode with 0x1C001C22. now rewrite Hs.
Qed.
Lemma text_ok o d : rich_text_node_parse o = Ok d <-> text_object o d.
Proof.
  unfold rich_text_node_parse, text_object. split.
  - intros H. do 11 (let E := fresh "E" in apply bind_ok in H as (? & E & H);
          lazymatch type of E with ?r = Ok _ => try (let l := rel_of r in apply l in E) end).
    apply bind_ok in H as (u & Hu & H). apply bind_ok in H as (t & Ht & H).
    assert (Htx : paragraph_text o t) by (apply text_iff; rewrite Hu; exact Ht).
    fwd H. injection H as <-. cbn. conj_all; try done_with. exact Htx.
  - intros H. split_hyps. apply text_iff in H10. apply bind_ok in H10 as (u & Hu & Ht).
    do 11 bwd_step.
    apply (bind_intro _ _ u); [exact Hu|]. apply (bind_intro _ _ (rt_text d)); [exact Ht|].
    repeat bwd_step. destruct d; reflexivity.
Qed.
