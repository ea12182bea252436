(** Accepted properties have the types their numbers declare. *)
From Coq Require Import Lia ZifyBool ZifyNat ZifyN.
From Verif Require Import Base BaseProofs Codec Package PropSet PropIds Store Shapes Props Nodes SpecCodec
  SpecValues ValuesProofs SpecNodes NodesProofs NodesProofs2.

Lemma optional_typed {A} o id (R : pvalue -> A -> Prop) x v n :
  optional o id R x -> stored o id = Some v -> (forall a, R v a -> wire_type v = n) -> wire_type v = n.
Proof. unfold optional. intros H E K. rewrite E in H. destruct H as (a & Ha & _). eauto. Qed.
Lemma required_typed {A} o id (R : pvalue -> A -> Prop) x v n :
  required o id R x -> stored o id = Some v -> (forall a, R v a -> wire_type v = n) -> wire_type v = n.
Proof. intros (w & H & Hw) E K. rewrite E in H. injection H as <-. eauto. Qed.
Lemma defaulted_typed {A} o id (R : pvalue -> A -> Prop) d x v n :
  defaulted o id R d x -> stored o id = Some v -> (forall a, R v a -> wire_type v = n) -> wire_type v = n.
Proof. unfold defaulted. intros H E K. rewrite E in H. eauto. Qed.
Lemma references_typed o id l v : references o id l -> stored o id = Some v -> wire_type v = 9.
Proof.
  unfold references, prop_objects, get_prop, stored. intros H E. rewrite E in H. cbn in H.
  destruct v; try discriminate H; reflexivity.
Qed.
Lemma children_typed o id l v : children o id l -> stored o id = Some v -> wire_type v = 9.
Proof. unfold children. intros H E. rewrite E in H. eapply references_typed; eauto. Qed.
Lemma reference_typed o id x v : reference o id x -> stored o id = Some v -> wire_type v = 8.
Proof.
  unfold reference, prop_object, get_prop, stored. intros H E. rewrite E in H. cbn in H.
  destruct v; try discriminate H; reflexivity.
Qed.
Lemma spaces_typed o id l v : spaces o id l -> stored o id = Some v -> wire_type v = 11.
Proof.
  unfold spaces. intros H E. rewrite E in H. unfold prop_spaces, get_prop in H. unfold stored in E. rewrite E in H.
  cbn in H. destruct v; try discriminate H; reflexivity.
Qed.
Lemma tags_typed o l v : tags o l -> stored o 0x40003489 = Some v -> wire_type v = 16.
Proof. unfold tags. intros H E. rewrite E in H. destruct H as (i & s & -> & _). reflexivity. Qed.
Lemma paragraph_typed o x v : paragraph_text o x -> stored o 0x1C001C22 = Some v -> wire_type v = 7.
Proof. unfold paragraph_text. intros H E. rewrite E in H. destruct H as (s & (d & -> & _) & _). reflexivity. Qed.

Lemma ty_boolean v a : boolean v a -> wire_type v = 2. Proof. intros H. rewrite H. reflexivity. Qed.
Lemma ty_byte v a : byte v a -> wire_type v = 3. Proof. intros H. rewrite H. reflexivity. Qed.
Lemma ty_word v a : word v a -> wire_type v = 4. Proof. intros H. rewrite H. reflexivity. Qed.
Lemma ty_dword v a : dword v a -> wire_type v = 5. Proof. intros H. rewrite H. reflexivity. Qed.
Lemma ty_qword v a : qword v a -> wire_type v = 6. Proof. intros H. rewrite H. reflexivity. Qed.
Lemma ty_raw v a : raw v a -> wire_type v = 7. Proof. intros H. rewrite H. reflexivity. Qed.
Lemma ty_float v a : float v a -> wire_type v = 5. Proof. intros H. rewrite H. reflexivity. Qed.
Lemma ty_inverted v a : inverted v a -> wire_type v = 2. Proof. intros H. rewrite H. reflexivity. Qed.
Lemma ty_text v a : text v a -> wire_type v = 7. Proof. intros (d & -> & _); reflexivity. Qed.
Lemma ty_uuid v a : uuid v a -> wire_type v = 7. Proof. intros (d & r & -> & _); reflexivity. Qed.
Lemma ty_signed v a : signed v a -> wire_type v = 5. Proof. intros (n & -> & _); reflexivity. Qed.
Lemma ty_words v a : words v a -> wire_type v = 7. Proof. intros (d & -> & _); reflexivity. Qed.
Lemma ty_dwords v a : dwords v a -> wire_type v = 7. Proof. intros (d & -> & _); reflexivity. Qed.
Lemma ty_argb v a : argb v a -> wire_type v = 5. Proof. intros (n & -> & _); reflexivity. Qed.
Lemma ty_colorref v a : colorref v a -> wire_type v = 5. Proof. intros (n & -> & _); reflexivity. Qed.
Lemma ty_alignment v a : alignment v a -> wire_type v = 5. Proof. intros (n & -> & _); reflexivity. Qed.
Lemma ty_paragraph_align v a : paragraph_align v a -> wire_type v = 3. Proof. intros (n & -> & _); reflexivity. Qed.
Lemma ty_media v a : media v a -> wire_type v = 5. Proof. intros [(-> & _)|(-> & _)]; reflexivity. Qed.
Lemma ty_indents v a : indents v a -> wire_type v = 7. Proof. intros (b & c & d & e & n & -> & _); reflexivity. Qed.
Lemma ty_path v a : path v a -> wire_type v = 7. Proof. intros (d & -> & _); reflexivity. Qed.
Lemma ty_dimension_table v a : dimension_table v a -> wire_type v = 7. Proof. intros (d & -> & _); reflexivity. Qed.
Lemma ty_status_bits v a : status_bits v a -> wire_type v = 4. Proof. intros (n & -> & _); reflexivity. Qed.
Lemma ty_tag_status_bits v a : tag_status_bits v a -> wire_type v = 5. Proof. intros (n & -> & _); reflexivity. Qed.
Lemma ty_item_type v a : item_type v a -> wire_type v = 4. Proof. intros (n & -> & _); reflexivity. Qed.
Lemma ty_character v a : character v a -> wire_type v = 4. Proof. intros (n & -> & _); reflexivity. Qed.
Lemma ty_numbering v a : numbering v a -> wire_type v = 7. Proof. intros (n & r & (d & -> & _) & _); reflexivity. Qed.
Lemma ty_column_flags v a : column_flags v a -> wire_type v = 7. Proof. intros [(-> & _)|(n & ->)]; reflexivity. Qed.
Lemma ty_column_widths v a : column_widths v a -> wire_type v = 7. Proof. intros [(-> & _)|(n & d & -> & _)]; reflexivity. Qed.
Lemma ty_escaped_name v a : escaped_name v a -> wire_type v = 7. Proof. intros (s & t & (d & -> & _) & _); reflexivity. Qed.
Lemma ty_entry8 {A} (l : list (N * A)) v a : entry VU8 l v a -> wire_type v = 3. Proof. intros (n & -> & _). reflexivity. Qed.
Lemma ty_entry16 {A} (l : list (N * A)) v a : entry VU16 l v a -> wire_type v = 4. Proof. intros (n & -> & _). reflexivity. Qed.
Ltac val_typed := first [ exact (ty_boolean _)
  | exact (ty_byte _)
  | exact (ty_word _)
  | exact (ty_dword _)
  | exact (ty_qword _)
  | exact (ty_raw _)
  | exact (ty_float _)
  | exact (ty_inverted _)
  | exact (ty_text _)
  | exact (ty_uuid _)
  | exact (ty_signed _)
  | exact (ty_words _)
  | exact (ty_dwords _)
  | exact (ty_argb _)
  | exact (ty_colorref _)
  | exact (ty_alignment _)
  | exact (ty_paragraph_align _)
  | exact (ty_media _)
  | exact (ty_indents _)
  | exact (ty_path _)
  | exact (ty_dimension_table _)
  | exact (ty_status_bits _)
  | exact (ty_tag_status_bits _)
  | exact (ty_item_type _)
  | exact (ty_character _)
  | exact (ty_numbering _)
  | exact (ty_column_flags _)
  | exact (ty_column_widths _)
  | exact (ty_escaped_name _)
  | exact (ty_entry8 _ _) | exact (ty_entry16 _ _) ].
Ltac typed :=
  match goal with
  | H : optional ?o ?id ?R ?x, E : stored ?o ?id = Some ?v |- _ => apply (optional_typed o id R x v _ H E); val_typed
  | H : required ?o ?id ?R ?x, E : stored ?o ?id = Some ?v |- _ => apply (required_typed o id R x v _ H E); val_typed
  | H : defaulted ?o ?id ?R ?d ?x, E : stored ?o ?id = Some ?v |- _ =>
    apply (defaulted_typed o id R d x v _ H E); val_typed
  | H : references ?o ?id ?x, E : stored ?o ?id = Some ?v |- _ => exact (references_typed o id x v H E)
  | H : children ?o ?id ?x, E : stored ?o ?id = Some ?v |- _ => exact (children_typed o id x v H E)
  | H : reference ?o ?id ?x, E : stored ?o ?id = Some ?v |- _ => exact (reference_typed o id x v H E)
  | H : spaces ?o ?id ?x, E : stored ?o ?id = Some ?v |- _ => exact (spaces_typed o id x v H E)
  | H : tags ?o ?x, E : stored ?o 0x40003489 = Some ?v |- _ => exact (tags_typed o x v H E)
  | H : paragraph_text ?o ?x, E : stored ?o 0x1C001C22 = Some ?v |- _ => exact (paragraph_typed o x v H E)
  end.
Ltac types ok spec :=
  let H := fresh "H" in let Hin := fresh "Hin" in let E := fresh "E" in
  intros o d id v H Hin E; apply ok in H; unfold spec in H; split_hyps;
  repeat match goal with K : exists _, _ |- _ => destruct K; split_hyps end;
  cbn [In] in Hin; repeat (destruct Hin as [<-|Hin]; [typed|]); destruct Hin.

Lemma section_node_parse_types : reads_typed section_node_parse
    [0x1C001C30; 0x24001C20; 0x18001C65].
Proof. types section_node_ok section_node. Qed.
Lemma section_metadata_parse_types : reads_typed section_metadata_parse
    [0x14001D82; 0x1400348B; 0x1C00349B; 0x14001CBE].
Proof. types section_meta_ok section_meta. Qed.
Lemma page_series_node_parse_types : reads_typed page_series_node_parse
    [0x1C001C30; 0x2C001D63; 0x24003442; 0x18001C65].
Proof. types series_ok series_node. Qed.
Lemma page_node_parse_types : reads_typed page_node_parse
    [0x14001D7A; 0x1C001D3C; 0x1C001D75; 0x24001C20; 0x24001D5F; 0x08001C8E; 0x14001C01;
     0x14001C02; 0x14001D0F; 0x14001D10; 0x14001C4E; 0x14001C4F; 0x14001C4C; 0x14001C4D;
     0x08001C92].
Proof. types page_ok page_object. Qed.
Lemma page_metadata_parse_types : reads_typed page_metadata_parse
    [0x1C001C30; 0x1C001CF3; 0x14001D82; 0x1400348B; 0x14001DFF; 0x18001C65].
Proof. types page_meta_ok page_meta. Qed.
Lemma page_manifest_parse_types : reads_typed page_manifest_parse
    [0x24001C1F].
Proof. types manifest_ok manifest_node. Qed.
Lemma title_node_parse_types : reads_typed title_node_parse
    [0x14001D7A; 0x24001C20; 0x14001C14; 0x14001C15; 0x14001C3E; 0x14001C84].
Proof. types title_ok title_object. Qed.
Lemma embedded_file_node_parse_types : reads_typed embedded_file_node_parse
    [0x14001D7A; 0x20001C3F; 0x14001C1B; 0x14001C1C; 0x08001CBD; 0x1C001C22; 0x10001CFE;
     0x14001C3E; 0x14001C84; 0x20001D9B; 0x1C001D9C; 0x1C001D9D; 0x14001D24; 0x140034CD;
     0x140034CE; 0x14001C14; 0x14001C15; 0x40003489].
Proof. types file_node_ok file_node. Qed.
Lemma iframe_node_parse_types : reads_typed iframe_node_parse
    [0x140035F2; 0x1C0035F3].
Proof. types iframe_ok iframe_object. Qed.
Lemma image_node_parse_types : reads_typed image_node_parse
    [0x14001D7A; 0x20001C3F; 0x14001C1B; 0x14001C1C; 0x08001CBD; 0x14001C3B; 0x1C001E58;
     0x14001C3E; 0x14001C84; 0x1C001DD7; 0x14003480; 0x1C001C22; 0x10001CFE; 0x140034CD;
     0x140034CE; 0x1C001E20; 0x14001C14; 0x14001C15; 0x08001D13; 0x24001C1F; 0x40003489].
Proof. types image_ok image_object. Qed.
Lemma embedded_ink_parse_types : reads_typed embedded_ink_parse
    [0x14001C27; 0x14001C28; 0x1400349E; 0x1400349F; 0x140034A1; 0x140034A0; 0x140034A2;
     0x140034A3].
Proof. types embedded_ink_ok embedded_ink_run. Qed.
Lemma ink_container_parse_types : reads_typed ink_container_parse
    [0x14001C14; 0x14001C15; 0x14001D7A; 0x20003415; 0x14001C46].
Proof. types ink_container_ok ink_container. Qed.
Lemma ink_data_node_parse_types : reads_typed ink_data_node_parse
    [0x24003416; 0x1C003418].
Proof. types ink_node_ok ink_node. Qed.
Lemma ink_stroke_node_parse_types : reads_typed ink_stroke_node_parse
    [0x1C00340B; 0x0C00341C; 0x14001C3B; 0x20003409].
Proof. types stroke_ok stroke_node. Qed.
Lemma stroke_properties_parse_types : reads_typed stroke_properties_parse
    [0x08003411; 0x0C003412; 0x0C003413; 0x0C003414; 0x1400340D; 0x1400340C; 0x1400340F;
     0x1C00340A].
Proof. types stroke_properties_ok stroke_properties. Qed.
Lemma math_data_parse_types : reads_typed math_data_parse
    [0x1400344F; 0x14003450; 0x0C003451; 0x0C003452; 0x10003453; 0x10003454; 0x10003455].
Proof. types math_ok math_object_data. Qed.
Lemma tag_definition_parse_types : reads_typed tag_definition_parse
    [0x1C003468; 0x14003467; 0x10003464; 0x14003465; 0x14003466; 0x10003463].
Proof. types tag_definition_ok tag_definition_object. Qed.
Lemma number_list_parse_types : reads_typed number_list_parse
    [0x14001D7A; 0x1C001C52; 0x14001CB7; 0x1C001C1A; 0x08001C04; 0x08001C05; 0x14001C3B;
     0x1C001C0A; 0x10001C0B; 0x14001C0C].
Proof. types list_ok list_object. Qed.
Lemma style_parse_types : reads_typed style_parse
    [0x0C001D01; 0x08001C04; 0x08001C05; 0x08001C06; 0x08001C07; 0x08001C08; 0x08001C09;
     0x1C001C0A; 0x10001C0B; 0x14001C0C; 0x14001C0D; 0x1C00348A; 0x1C00345A; 0x0C003477;
     0x1400342E; 0x1400342F; 0x14003430; 0x14001C3B; 0x08003401; 0x08001E14; 0x08001E19;
     0x08001E16; 0x08001E22; 0x14003457].
Proof. types style_ok style_object. Qed.
Lemma rich_text_node_parse_types : reads_typed rich_text_node_parse
    [0x14001D7A; 0x08001C00; 0x24001E13; 0x1C001E12; 0x24003458; 0x2000342C; 0x1400342E;
     0x1400342F; 0x14003430; 0x0C003477; 0x08001C87; 0x08001C88; 0x08001CB5; 0x08001CB4;
     0x14001C3E; 0x14001C84; 0x10001CFE; 0x08003476; 0x40003489; 0x1C001C22].
Proof. types text_ok text_object. Qed.
Lemma outline_element_node_parse_types : reads_typed outline_element_node_parse
    [0x14001D09; 0x14001D7A; 0x24001C20; 0x0C001C03; 0x24001C1F; 0x24001C26; 0x14001CCB;
     0x20001D78; 0x20001D79; 0x08001C34; 0x08001D0C; 0x08001CB2; 0x08001CB4].
Proof. types element_ok element_object. Qed.
Lemma outline_group_node_parse_types : reads_typed outline_group_node_parse
    [0x14001D7A; 0x24001C20; 0x0C001C03].
Proof. types group_ok group_object. Qed.
Lemma outline_node_parse_types : reads_typed outline_node_parse
    [0x14001D7A; 0x24001C20; 0x0C001C03; 0x14001C1C; 0x14001C1B; 0x14001CDB; 0x14001CEC;
     0x08001CFF; 0x08001CBD; 0x14001C14; 0x14001C15; 0x14001CCB; 0x1C001C12; 0x14001C3E;
     0x14001C84; 0x08001D0C; 0x08001CB5; 0x08001CB2; 0x08001CB4; 0x08001CDE; 0x08001CF9;
     0x08001C00].
Proof. types outline_ok outline_object. Qed.
Lemma table_cell_node_parse_types : reads_typed table_cell_node_parse
    [0x14001D7A; 0x24001C20; 0x14001C1B; 0x1C001C12; 0x14001E26].
Proof. types cell_ok cell_object. Qed.
Lemma table_node_parse_types : reads_typed table_node_parse
    [0x14001D7A; 0x24001C20; 0x14001D57; 0x14001D58; 0x1C001D7D; 0x1C001D66; 0x08001D5E;
     0x14001C3E; 0x14001C84; 0x40003489].
Proof. types table_ok table_object. Qed.
Lemma table_row_node_parse_types : reads_typed table_row_node_parse
    [0x14001D7A; 0x24001C20].
Proof. types row_ok row_object. Qed.
Lemma toc_parse_types : reads_typed toc_parse
    [0x24001CF6; 0x1C001D6B; 0x14001CB9; 0x14001CBE].
Proof. types toc_ok toc_object. Qed.
