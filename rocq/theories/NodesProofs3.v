(** Node parsers always return; the panic of list formats; note tag definitions. *)
From Coq Require Import Lia ZifyBool ZifyNat ZifyN.
From Verif Require Import Base BaseProofs Codec CodecProofs CodecRT CodecRT2 CodecRT3 CodecRT4 Package SpecPackage PropSet PropIds Store SpecStore
  StoreProofs Shapes Props Nodes Doc SpecCodec SpecPropSet PropSetProofs PropSetRT SpecRefs RefsProofs SpecValues
  ValuesProofs SpecNodes NodesProofs NodesProofs2.

Lemma ret_bind {A B} (r : res A) (f : A -> res B) : returns r -> (forall a, returns (f a)) -> returns (rbind r f).
Proof. destruct r; cbn; intros H Hf; try destruct H; auto. Qed.
Lemma ret_ok_or {A} e (x : option A) : returns (ok_or e x).
Proof. now destruct x. Qed.
Lemma ret_opt_map {A B} (f : A -> res B) x : (forall a, returns (f a)) -> returns (opt_map_res f x).
Proof. intros H. destruct x; cbn; [apply ret_bind; [apply H|intros; exact I]|exact I]. Qed.
Lemma ret_map_res {A B} (f : A -> res B) l : (forall a, returns (f a)) -> returns (map_res f l).
Proof.
  intros H. induction l as [|a l IH]; cbn; [exact I|]. apply ret_bind; [apply H|]. intros b.
  apply ret_bind; [exact IH|intros; exact I].
Qed.
Lemma ret_get {A} (c : pvalue -> option A) id o : returns (get_prop c id o).
Proof. apply ret_opt_map. intros. apply ret_ok_or. Qed.
Lemma ret_rmap {A B} (f : A -> B) r : returns r -> returns (rmap f r).
Proof. intros H. apply ret_bind; [exact H|intros; exact I]. Qed.
Lemma ret_req {A} (r : res (option A)) : returns r -> returns (req r).
Proof. intros H. apply ret_bind; [exact H|intros; apply ret_ok_or]. Qed.
Lemma ret_dflt {A} (d : A) r : returns r -> returns (dflt d r).
Proof. intros H. apply ret_bind; [exact H|intros; exact I]. Qed.
Lemma ret_run {A} k (p : parser A) d : good k p -> returns (run p d).
Proof.
  intros [_ Hp Hf]. specialize (Hp d). specialize (Hf d). unfold run. destruct (p d) as [[a r]| | |]; cbn; auto.
Qed.
Lemma ret_string id o : returns (prop_string id o).
Proof.
  apply ret_bind; [apply ret_get|]. intros d. apply ret_opt_map. intros bs. unfold utf16_to_string.
  destruct (from_utf16 (truncate_nul (u16_chunks bs))); exact I.
Qed.
Lemma ret_guid id o : returns (prop_guid id o).
Proof. apply ret_bind; [apply ret_get|]. intros d. apply ret_opt_map. intros bs. eapply ret_run. apply good_guid. Qed.
Lemma ret_kind k o : returns (assert_kind k o).
Proof. unfold assert_kind. destruct (_ =? _); exact I. Qed.
Lemma ret_offset id o : returns (object_offset id o).
Proof. apply ret_bind; [apply ret_bind; [apply ret_ok_or|intros; exact I]|intros; exact I]. Qed.
Lemma ret_soffset id o : returns (space_offset id o).
Proof. apply ret_bind; [apply ret_bind; [apply ret_ok_or|intros; exact I]|intros; exact I]. Qed.
Lemma ret_object id o : returns (prop_object id o).
Proof.
  apply ret_bind; [apply ret_get|]. intros [u|]; [|exact I]. apply ret_bind; [apply ret_offset|]. intros i.
  apply ret_bind; [apply ret_ok_or|intros; exact I].
Qed.
Lemma ret_objects id o : returns (prop_objects id o).
Proof. apply ret_bind; [apply ret_get|]. intros [u|]; [|exact I]. apply ret_bind; [apply ret_offset|intros; exact I]. Qed.
Lemma ret_spaces id o : returns (prop_spaces id o).
Proof. apply ret_bind; [apply ret_get|]. intros [u|]; [|exact I]. apply ret_bind; [apply ret_soffset|intros; exact I]. Qed.
Lemma ret_nested p i o s : returns (nested_object p i o s).
Proof.
  unfold nested_object. cbv zeta. apply ret_bind; [apply ret_offset|]. intros off.
  apply ret_bind; [apply ret_soffset|intros; exact I].
Qed.
Lemma ret_decodes {A} (f : N -> res A) table e n : decodes f Ok table (Err e) -> returns (f n).
Proof.
  intros (_ & _ & Hin & Hout). destruct (in_dec N.eq_dec n (map fst table)) as [H|H].
  - apply in_map_iff in H as ([m a] & <- & H). cbn. now rewrite (Hin _ _ H).
  - now rewrite (Hout _ H).
Qed.
Ltac ret_num := intros n; let H := fresh in destruct n as [|n]; repeat (destruct n as [n|n|]; try exact I); exact I.
Lemma ret_charset id o : returns (charset_parse id o).
Proof.
  unfold charset_parse. apply ret_bind; [apply ret_get|]. intros v. apply ret_opt_map. intros n.
  eapply ret_decodes, charset_decodes.
Qed.
Lemma ret_page_size id o : returns (page_size_parse id o).
Proof.
  unfold page_size_parse. apply ret_bind; [apply ret_get|]. intros v. apply ret_opt_map. intros n.
  eapply ret_decodes, page_size_decodes.
Qed.
Lemma ret_shape n : returns (shape_parse n).
Proof. eapply ret_decodes, shape_decodes. Qed.
Lemma ret_bias n : returns (ink_bias_of n).
Proof. eapply ret_decodes, bias_decodes. Qed.
Lemma ret_signed d : returns (decode_signed d).
Proof. destruct (decode_signed_facts d) as (H1 & H2 & _). destruct (decode_signed d); cbn; auto. Qed.
Lemma ret_layout id o : returns (layout_alignment_parse id o).
Proof.
  unfold layout_alignment_parse. apply ret_bind; [apply ret_get|]. intros [n|]; [|exact I].
  destruct (negb _); [exact I|].
  assert (H1 : forall m, returns (halign_of m)) by (intros m; eapply ret_decodes, halign_decodes).
  assert (H2 : forall m, returns (halign_margin_of m)) by (intros [|[p|p|]]; exact I).
  assert (H3 : forall m, returns (valign_of m)) by (intros [|[p|p|]]; exact I).
  assert (H4 : forall m, returns (valign_margin_of m)) by (intros [|[p|p|]]; exact I).
  apply ret_bind; [apply H1|intros]. apply ret_bind; [apply H2|intros].
  apply ret_bind; [apply H3|intros]. apply ret_bind; [apply H4|intros; exact I].
Qed.
Lemma ret_media o : returns (file_type_parse o).
Proof.
  unfold file_type_parse. apply ret_bind; [apply ret_get|]. intros [[|[p|[p|p|]|]]|]; exact I.
Qed.
Lemma ret_dims id o : returns (ink_dimensions_parse id o).
Proof.
  unfold ink_dimensions_parse. apply ret_bind; [apply ret_get|]. intros [d|]; [|exact I].
  apply ret_map_res. intros c. unfold ink_dimension_entry. eapply (ret_run 1). gd.
Qed.
Lemma ret_indents o : returns (indent_distance_parse o).
Proof.
  unfold indent_distance_parse. apply ret_bind; [apply ret_get|]. intros v. apply ret_opt_map. intros d.
  eapply (ret_run 1). gd.
Qed.
Lemma ret_char id o : returns (prop_char id o).
Proof.
  unfold prop_char. apply ret_bind; [apply ret_get|]. intros [n|]; [|exact I]. cbn.
  apply ret_bind; [|intros; exact I]. apply ret_bind; [|intros; exact I]. unfold utf16_char.
  apply ret_bind; [apply ret_ok_or|intros; exact I].
Qed.
Lemma ret_color id o : returns (color_parse id o).
Proof. unfold color_parse. apply ret_rmap, ret_get. Qed.
Lemma ret_color_ref id o : returns (color_ref_parse id o).
Proof.
  unfold color_ref_parse. apply ret_bind; [apply ret_get|]. intros v. apply ret_opt_map. intros n.
  destruct (le_byte 3 n) as [|p]; [exact I|]. do 8 (destruct p as [p|p|]; try exact I).
Qed.
Lemma ret_tags o : returns (tags_parse o).
Proof.
  unfold tags_parse. apply ret_bind; [apply ret_get|]. intros v. apply ret_opt_map. intros [i sets].
  apply ret_map_res. intros s. apply ret_bind; [apply ret_nested|]. intros t. unfold tag_parse_data.
  apply ret_bind; [apply ret_object|intros]. apply ret_bind; [apply ret_req, ret_get|intros].
  apply ret_bind; [apply ret_get|intros]. apply ret_bind; [apply ret_req, ret_rmap, ret_get|intros; exact I].
Qed.

(** Every node. *)
Ltac ret_step :=
  first
  [ exact I
  | apply ret_get | apply ret_string | apply ret_guid | apply ret_kind | apply ret_object | apply ret_objects
  | apply ret_spaces | apply ret_charset | apply ret_page_size | apply ret_layout | apply ret_media
  | apply ret_dims | apply ret_indents | apply ret_char | apply ret_color | apply ret_color_ref | apply ret_tags
  | apply ret_shape | apply ret_bias | apply ret_signed | apply ret_ok_or
  | apply ret_req | apply ret_dflt | apply ret_rmap
  | apply ret_opt_map; intros | apply ret_bind; [|intros] ].
Ltac ret := intros; repeat ret_step.
Ltac ret_node f := unfold f; ret.
Lemma section_ret o : returns (section_node_parse o). Proof. ret_node section_node_parse. Qed.
Lemma section_meta_ret o : returns (section_metadata_parse o). Proof. ret_node section_metadata_parse. Qed.
Lemma series_ret o : returns (page_series_node_parse o). Proof. ret_node page_series_node_parse. Qed.
Lemma page_ret o : returns (page_node_parse o). Proof. ret_node page_node_parse. Qed.
Lemma page_meta_ret o : returns (page_metadata_parse o). Proof. ret_node page_metadata_parse. Qed.
Lemma manifest_ret o : returns (page_manifest_parse o). Proof. ret_node page_manifest_parse. Qed.
Lemma title_ret o : returns (title_node_parse o). Proof. ret_node title_node_parse. Qed.
Lemma file_container_ret o : returns (embedded_file_container_parse o). Proof. ret_node embedded_file_container_parse. Qed.
Lemma file_node_ret o : returns (embedded_file_node_parse o). Proof. ret_node embedded_file_node_parse. Qed.
Lemma picture_ret o : returns (picture_container_parse o).
Proof. unfold picture_container_parse. destruct (negb _ && negb _); ret. Qed.
Lemma iframe_ret o : returns (iframe_node_parse o). Proof. ret_node iframe_node_parse. Qed.
Lemma image_ret o : returns (image_node_parse o). Proof. ret_node image_node_parse. Qed.
Lemma embedded_ink_ret o : returns (embedded_ink_parse o). Proof. ret_node embedded_ink_parse. Qed.
Lemma ink_container_ret o : returns (ink_container_parse o). Proof. ret_node ink_container_parse. Qed.
Lemma ink_node_ret o : returns (ink_data_node_parse o). Proof. ret_node ink_data_node_parse. Qed.
Lemma stroke_ret o : returns (ink_stroke_node_parse o). Proof. ret_node ink_stroke_node_parse. Qed.
Lemma stroke_properties_ret o : returns (stroke_properties_parse o). Proof. ret_node stroke_properties_parse. Qed.
Lemma math_ret o : returns (math_data_parse o). Proof. ret_node math_data_parse. Qed.
Lemma tag_definition_ret o : returns (tag_definition_parse o). Proof. ret_node tag_definition_parse. Qed.
Lemma style_ret o : returns (style_parse o). Proof. ret_node style_parse. Qed.
Lemma text_ret o : returns (rich_text_node_parse o).
Proof. unfold rich_text_node_parse. ret. all: match goal with |- returns (match ?u with _ => _ end) => destruct u; ret end. Qed.
Lemma element_ret o : returns (outline_element_node_parse o). Proof. ret_node outline_element_node_parse. Qed.
Lemma group_ret o : returns (outline_group_node_parse o). Proof. ret_node outline_group_node_parse. Qed.
Lemma outline_ret o : returns (outline_node_parse o). Proof. ret_node outline_node_parse. Qed.
Lemma cell_ret o : returns (table_cell_node_parse o). Proof. ret_node table_cell_node_parse. Qed.
Lemma table_ret o : returns (table_node_parse o). Proof. ret_node table_node_parse. Qed.
Lemma row_ret o : returns (table_row_node_parse o). Proof. ret_node table_row_node_parse. Qed.
Lemma toc_ret o : returns (toc_parse o). Proof. ret_node toc_parse. Qed.
Lemma runs_ret o : returns (text_run_data_parse o).
Proof.
  unfold text_run_data_parse. apply ret_bind; [apply ret_get|]. intros v. apply ret_opt_map. intros [i sets].
  apply ret_map_res. intros s. apply ret_nested.
Qed.

(** The list format. *)
Lemma format_panics o :
  req (let! v := prop_vec_u16 P_NumberListFormat o in opt_map_res list_format_of v) = Panic <->
  exists d, stored o 0x1C001C1A = Some (VVec d) /\ (length d < 2)%nat.
Proof.
  unfold prop_vec_u16, get_prop, stored. change P_NumberListFormat with 0x1C001C1A.
  destruct (oprops_get 0x1C001C1A (ob_props o)) as [v|]; cbn.
  - destruct v; cbn; try (split; [discriminate|intros (? & [=] & _)]). split.
    + destruct d as [|a [|b d]]; cbn; try discriminate; intros _.
      * exists []. split; [reflexivity|cbn; lia].
      * exists [a]. split; [reflexivity|cbn; lia].
    + intros (d' & [= <-] & H). destruct d as [|a [|b d]]; cbn in *; try lia; reflexivity.
  - split; [discriminate|intros (? & [=] & _)].
Qed.
Lemma panic_bind {A B} (r : res A) (f : A -> res B) :
  returns r -> rbind r f = Panic <-> exists a, r = Ok a /\ f a = Panic.
Proof.
  destruct r as [a| | |]; cbn; intros H; try destruct H.
  - split; [intros E; exists a; auto|intros (b & [= <-] & E); exact E].
  - split; [discriminate|intros (b & [=] & _)].
Qed.
Lemma list_panics o : number_list_parse o = Panic <->
  ob_jcid o = 0x00060012 /\
  (exists t, required o 0x14001D7A dword t) /\
  (exists f, optional o 0x1C001C52 text f) /\
  (exists z, optional o 0x14001CB7 signed z) /\
  exists d, stored o 0x1C001C1A = Some (VVec d) /\ (length d < 2)%nat.
Proof.
  unfold number_list_parse.
  assert (Hrest : forall A (f : A -> res number_list) r, r <> Panic -> (forall a, f a <> Panic) -> rbind r f <> Panic).
  { intros A f r Hr Hf. destruct r; cbn; auto; discriminate. }
  split.
  - intros H. apply panic_bind in H as (u & Hu & H); [|apply ret_kind].
    apply panic_bind in H as (t & Ht & H); [|ret].
    apply panic_bind in H as (f & Hf & H); [|ret].
    apply panic_bind in H as (z & Hz & H); [|ret].
    apply (kind_iff _ _ _ _ eq_refl) in Hu. apply (required_of _ _ _ _ _ (time_iff _ _)) in Ht.
    apply string_iff in Hf. apply signed_iff in Hz.
    split; [exact Hu|]. split; [exists t; exact Ht|]. split; [exists f; exact Hf|]. split; [exists z; exact Hz|].
    apply format_panics. destruct (req _) as [a| | |]; cbn [rbind] in H; try discriminate H; [|reflexivity].
    exfalso. match type of H with ?e = _ => assert (K : returns e) by ret; rewrite H in K; exact K end.
  - intros (Hk & (t & Ht) & (f & Hf) & (z & Hz) & Hd). apply format_panics in Hd.
    apply (kind_iff K_NumberListNode _ _ tt eq_refl) in Hk. rewrite Hk. cbn [rbind].
    apply (required_of _ _ _ _ _ (time_iff P_LastModifiedTime o)) in Ht. rewrite Ht. cbn [rbind].
    apply (string_iff P_ListFont) in Hf. rewrite Hf. cbn [rbind].
    apply (signed_iff P_ListRestart) in Hz. rewrite Hz. cbn [rbind]. rewrite Hd. reflexivity.
Qed.
Lemma list_no_hang o : number_list_parse o <> OutOfFuel.
Proof.
  unfold number_list_parse.
  assert (Hb : forall A B (r : res A) (f : A -> res B), r <> OutOfFuel -> (forall a, f a <> OutOfFuel) -> rbind r f <> OutOfFuel).
  { intros A B r f Hr Hf. destruct r; cbn; auto; discriminate. }
  assert (Hr : forall A (r : res A), returns r -> r <> OutOfFuel) by (intros A r; destruct r; cbn; intros; congruence).
  apply Hb; [apply Hr; ret|intros _]. apply Hb; [apply Hr; ret|intros t]. apply Hb; [apply Hr; ret|intros f].
  apply Hb; [apply Hr; ret|intros z].
  apply Hb; [|intros; apply Hr; ret].
  unfold req. apply Hb; [|intros; apply Hr; ret]. apply Hb; [apply Hr; unfold prop_vec_u16; ret|].
  intros [[|n l]|]; cbn; discriminate.
Qed.
Lemma list_format o d : number_list_parse o = Ok d ->
  exists bytes n units, stored o 0x1C001C1A = Some (VVec bytes) /\ numbers 2 bytes (n :: units) /\
    lossy units (nl_list_format d).
Proof.
  intros H. apply list_ok in H. destruct H as (_ & _ & _ & _ & (v & Hv & n & r & (b & -> & Hn) & Hl) & _).
  exists b, n, r. auto.
Qed.
