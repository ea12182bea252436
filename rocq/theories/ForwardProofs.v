(** Unknown properties change nothing. *)
From Coq Require Import Lia ZifyBool ZifyNat ZifyN Permutation Relations.
From Verif Require Import Base BaseProofs Codec Package PropSet PropIds Store Shapes Props Nodes Doc Notebook SpecForward SameProofs.

Definition knownb (p : N) : bool := existsb (N.eqb p) known.
Lemma knownb_in p : knownb p = true -> In p known.
Proof. intro H. apply existsb_exists in H as (x & I & E). apply N.eqb_eq in E. now subst. Qed.

(** ** One insertion *)
Lemma alookup_perm {V} k (m m' : list (N * V)) :
  NoDup (map fst m) -> Permutation m m' -> alookup N.eqb k m = alookup N.eqb k m'.
Proof.
  intros D P. revert D. induction P as [|[x v] l l' P IH|[x v] [y w] l|l1 l2 l3 P1 IH1 P2 IH2]; intro D; cbn in *.
  - reflexivity.
  - inversion D; subst. now rewrite IH.
  - inversion D as [|? ? N1 D1]; subst. destruct (k =? y) eqn:E1, (k =? x) eqn:E2; try reflexivity.
    elim N1. left. lia.
  - rewrite IH1 by auto. apply IH2. eapply Permutation_NoDup; [apply Permutation_map; exact P1|exact D].
Qed.

Definition bump (k i : N) : N := if i <? k then i else i + 1.
Definition bumped (k : N) (e : N * (N * pvalue)) : N * (N * pvalue) :=
  match e with (p, (i, w)) => (p, (if i <? k then i else i + 1, w)) end.

Lemma alookup_bumped k p m : alookup N.eqb p (map (bumped k) m) =
  option_map (fun e => (bump k (fst e), snd e)) (alookup N.eqb p m).
Proof.
  induction m as [|[q [i w]] m IH]; cbn; [reflexivity|]. destruct (p =? q); [reflexivity|exact IH].
Qed.

Lemma sumN_ext {A} (f g : A -> N) l : (forall x, In x l -> f x = g x) -> sumN f l = sumN g l.
Proof. induction l as [|x l IH]; cbn; intro H; [reflexivity|]. rewrite H, IH; auto. Qed.

Lemma sumN_zero {A} (f : A -> N) l : (forall x, In x l -> f x = 0) -> sumN f l = 0.
Proof. induction l as [|x l IH]; cbn; intro H; [reflexivity|]. rewrite H, IH; auto. Qed.

Lemma sumN_permutation {A} (f : A -> N) l l' : Permutation l l' -> sumN f l = sumN f l'.
Proof. induction 1; cbn; lia. Qed.

Lemma forallb_in {A} (f : A -> bool) l x : forallb f l = true -> In x l -> f x = true.
Proof. intro H. now apply (proj1 (forallb_forall f l) H). Qed.

Fixpoint plain_objects (v : pvalue) : plain v = true -> count_object_refs v = 0.
Proof.
  destruct v; cbn; try discriminate; try reflexivity. intro H.
  induction sets as [|s sets IH]; cbn in *; [reflexivity|]. apply andb_true_iff in H as [H1 H2].
  rewrite IH by exact H2. clear IH H2. enough (E : sumN (fun e : N * (N * pvalue) => let '(_, (_, w)) := e in count_object_refs w) s = 0) by now rewrite E.
  induction s as [|[p [i w]] s IH]; cbn in *; [reflexivity|]. apply andb_true_iff in H1 as [H1 H2].
  rewrite (plain_objects w H1), IH by exact H2. reflexivity.
Qed.
Fixpoint plain_spaces (v : pvalue) : plain v = true -> count_space_refs v = 0.
Proof.
  destruct v; cbn; try discriminate; try reflexivity. intro H.
  induction sets as [|s sets IH]; cbn in *; [reflexivity|]. apply andb_true_iff in H as [H1 H2].
  rewrite IH by exact H2. clear IH H2. enough (E : sumN (fun e : N * (N * pvalue) => let '(_, (_, w)) := e in count_space_refs w) s = 0) by now rewrite E.
  induction s as [|[p [i w]] s IH]; cbn in *; [reflexivity|]. apply andb_true_iff in H1 as [H1 H2].
  rewrite (plain_spaces w H1), IH by exact H2. reflexivity.
Qed.

(** References before position [index]. *)
Definition before (count : pvalue -> N) (m : propset) (index : N) : N :=
  sumN count (map snd (filter (fun e => fst e <? index) (map snd m))).

Lemma before_bumped count k m index : before count (map (bumped k) m) (bump k index) = before count m index.
Proof.
  unfold before. induction m as [|[q [i w]] m IH]; cbn; [reflexivity|].
  replace (bump k i <? bump k index) with (i <? index) by (unfold bump; destruct (i <? k) eqn:?, (index <? k) eqn:?; lia).
  fold (bump k i). replace (bump k i <? bump k index) with (i <? index)
    by (unfold bump; destruct (i <? k) eqn:?, (index <? k) eqn:?; lia).
  destruct (i <? index); cbn; lia.
Qed.

Record alike_sets (m m' : propset) : Prop := {
  as_get : forall p, In p known -> propset_get p m = propset_get p m';
  as_none : forall p, In p known -> propset_index p m = None <-> propset_index p m' = None;
  as_objects : forall p i i', In p known -> propset_index p m = Some i -> propset_index p m' = Some i' ->
    before count_object_refs m i = before count_object_refs m' i';
  as_spaces : forall p i i', In p known -> propset_index p m = Some i -> propset_index p m' = Some i' ->
    before count_space_refs m i = before count_space_refs m' i' }.

Lemma inserted_alike m m' : inserted m m' -> alike_sets m m'.
Proof.
  intros (k & id & v & U & P & D & N & Q). change (Permutation m' ((id, (k, v)) :: map (bumped k) m)) in Q.
  assert (D' : NoDup (map fst m')).
  { eapply Permutation_NoDup; [apply Permutation_map, Permutation_sym, Q|]. cbn [map fst].
    replace (map fst (map (bumped k) m)) with (map fst m)
      by (rewrite map_map; apply map_ext; intros [? [? ?]]; reflexivity). now constructor. }
  assert (L : forall p, In p known -> alookup N.eqb (pid_id p) m' =
    option_map (fun e => (bump k (fst e), snd e)) (alookup N.eqb (pid_id p) m)).
  { intros p K. rewrite (alookup_perm _ _ _ D' Q). cbn [alookup].
    destruct (pid_id p =? id) eqn:E; [|apply alookup_bumped]. exfalso. apply U. apply in_map_iff. exists p. split; [|exact K].
    apply N.eqb_eq in E. rewrite <- E. unfold pid_id. change 0x3ffffff with (N.ones 26). now rewrite N.land_ones. }
  assert (B : forall count index, count v = 0 -> before count m' (bump k index) = before count m index).
  { intros count index Z. rewrite <- (before_bumped count k m index). unfold before.
    rewrite (sumN_permutation count _ (map snd (filter (fun e => fst e <? bump k index) (map snd ((id, (k, v)) :: map (bumped k) m))))).
    - cbn [map snd filter fst]. destruct (k <? bump k index); cbn [map snd sumN]; [rewrite Z|]; reflexivity.
    - apply Permutation_map. clear - Q. generalize (Permutation_map snd Q).
      generalize (map snd m'), (map snd ((id, (k, v)) :: map (bumped k) m)). clear. intros l l' P.
      induction P as [|x l l' P IH|x y l|l1 l2 l3 P1 IH1 P2 IH2]; cbn.
      + constructor.
      + destruct (_ <? _); auto.
      + destruct (fst x <? _), (fst y <? _); auto. constructor.
      + now transitivity (filter (fun e : N * pvalue => fst e <? bump k index) l2). }
  split; intros p; unfold propset_get, propset_index.
  - intro K. rewrite (L p K). destruct (alookup _ _ m) as [[i w]|]; reflexivity.
  - intro K. rewrite (L p K). destruct (alookup _ _ m) as [[i w]|]; cbn; split; congruence.
  - intros i i' K. rewrite (L p K). destruct (alookup _ _ m) as [[j w]|]; cbn; [|discriminate].
    intros [= ->] [= <-]. symmetry. apply B. now apply plain_objects.
  - intros i i' K. rewrite (L p K). destruct (alookup _ _ m) as [[j w]|]; cbn; [|discriminate].
    intros [= ->] [= <-]. symmetry. apply B. now apply plain_spaces.
Qed.

Lemma same_known_alike m m' : same_known m m' -> alike_sets m m'.
Proof.
  induction 1 as [m m' H|m|m m' _ [G I O S]|m1 m2 m3 _ [G1 I1 O1 S1] _ [G2 I2 O2 S2]].
  - now apply inserted_alike.
  - split; intros; try reflexivity; congruence.
  - split; intros; symmetry; eauto.
  - split; intros.
    + now rewrite G1, G2.
    + rewrite I1, I2 by auto. reflexivity.
    + destruct (propset_index p m2) as [j|] eqn:E; [rewrite (O1 p i j), (O2 p j i'); auto|].
      apply I1 in E; auto. congruence.
    + destruct (propset_index p m2) as [j|] eqn:E; [rewrite (S1 p i j), (S2 p j i'); auto|].
      apply I1 in E; auto. congruence.
Qed.

(** ** Objects *)
Section Objects.
  Context (o o' : object) (A : object_alike o o').

  Lemma al_get {T} (c : pvalue -> option T) p : knownb p = true -> get_prop c p o = get_prop c p o'.
  Proof.
    intro K. destruct A as (_ & _ & _ & _ & _ & _ & S). apply same_known_alike in S. apply knownb_in in K.
    unfold get_prop, oprops_get. now rewrite (as_get _ _ S p K).
  Qed.
  Lemma al_objects p : knownb p = true -> object_offset p o = object_offset p o'.
  Proof.
    intro K. destruct A as (_ & _ & _ & _ & _ & _ & S). apply same_known_alike in S. apply knownb_in in K.
    unfold object_offset, predecessors. pose proof (as_none _ _ S p K) as N. pose proof (as_objects _ _ S p) as O.
    destruct (propset_index p (op_props (ob_props o))) as [i|]; cbn [ok_or rbind].
    - destruct (propset_index p (op_props (ob_props o'))) as [i'|]; cbn [ok_or rbind].
      + f_equal. now apply O.
      + discriminate (proj2 N eq_refl).
    - now rewrite (proj1 N eq_refl).
  Qed.
  Lemma al_spaces p : knownb p = true -> space_offset p o = space_offset p o'.
  Proof.
    intro K. destruct A as (_ & _ & _ & _ & _ & _ & S). apply same_known_alike in S. apply knownb_in in K.
    unfold space_offset, predecessors. pose proof (as_none _ _ S p K) as N. pose proof (as_spaces _ _ S p) as O.
    destruct (propset_index p (op_props (ob_props o))) as [i|]; cbn [ok_or rbind].
    - destruct (propset_index p (op_props (ob_props o'))) as [i'|]; cbn [ok_or rbind].
      + f_equal. now apply O.
      + discriminate (proj2 N eq_refl).
    - now rewrite (proj1 N eq_refl).
  Qed.
  Lemma al_object p : knownb p = true -> prop_object p o = prop_object p o'.
  Proof.
    intro K. unfold prop_object. rewrite (al_get _ _ K), (al_objects _ K).
    destruct A as (_ & _ & _ & -> & -> & _). reflexivity.
  Qed.
  Lemma al_object_list p : knownb p = true -> prop_objects p o = prop_objects p o'.
  Proof.
    intro K. unfold prop_objects. rewrite (al_get _ _ K), (al_objects _ K).
    destruct A as (_ & _ & _ & -> & -> & _). reflexivity.
  Qed.
  Lemma al_space_list p : knownb p = true -> prop_spaces p o = prop_spaces p o'.
  Proof.
    intro K. unfold prop_spaces. rewrite (al_get _ _ K), (al_spaces _ K).
    destruct A as (_ & _ & _ & -> & _ & -> & _). reflexivity.
  Qed.
  Lemma al_nested p id s : knownb p = true -> nested_object p id o s = nested_object p id o' s.
  Proof.
    intro K. unfold nested_object. rewrite (al_objects _ K), (al_spaces _ K).
    destruct A as (-> & _ & _ & -> & -> & _). reflexivity.
  Qed.
  Lemma al_jcid : ob_jcid o = ob_jcid o'.
  Proof. apply A. Qed.
  Lemma al_context : ob_context o = ob_context o'.
  Proof. apply A. Qed.
  Lemma al_file : ob_file o = ob_file o'.
  Proof. apply A. Qed.
End Objects.

Ltac alike H := repeat match type of H with object_alike ?o ?o' => match goal with
  | |- context [get_prop ?c ?p o] => rewrite (al_get o o' H c p eq_refl)
  | |- context [prop_object ?p o] => rewrite (al_object o o' H p eq_refl)
  | |- context [prop_objects ?p o] => rewrite (al_object_list o o' H p eq_refl)
  | |- context [prop_spaces ?p o] => rewrite (al_space_list o o' H p eq_refl)
  | |- context [ob_jcid o] => rewrite (al_jcid o o' H)
  | |- context [ob_context o] => rewrite (al_context o o' H)
  | |- context [ob_file o] => rewrite (al_file o o' H)
  end end.
Ltac unwrap := cbv beta delta [prop_vec_u16 prop_vec_u32 prop_ascii prop_string prop_guid author_parse charset_parse color_parse color_ref_parse file_type_parse ink_dimensions_parse layout_alignment_parse action_item_status_parse action_item_type_parse note_tag_status_parse indent_distance_parse page_size_parse paragraph_alignment_parse time_parse timestamp_parse prop_bool prop_u8 prop_u16 prop_u32 prop_f32 prop_vec flag_of refs_of prop_char req dflt assert_kind].
Lemma al_tag_parse_data o o' : object_alike o o' -> tag_parse_data o = tag_parse_data o'.
Proof. intro H. unfold tag_parse_data. unwrap. alike H. reflexivity. Qed.
Lemma al_tags_parse o o' : object_alike o o' -> tags_parse o = tags_parse o'.
Proof.
  intro H. unfold tags_parse. rewrite (al_get o o' H _ P_NoteTags eq_refl).
  destruct (get_prop to_property_values P_NoteTags o') as [[[i l]|]| | |]; cbn [rbind opt_map_res]; try reflexivity.
  rewrite (map_res_ext _ (fun props => let! t := nested_object P_NoteTags i o' props in tag_parse_data t));
    [reflexivity|]. intro s. now rewrite (al_nested o o' H P_NoteTags i s eq_refl).
Qed.
Lemma al_text_run_data_parse o o' : object_alike o o' -> text_run_data_parse o = text_run_data_parse o'.
Proof.
  intro H. unfold text_run_data_parse. rewrite (al_get o o' H _ P_TextRunData eq_refl).
  destruct (get_prop to_property_values P_TextRunData o') as [[[i l]|]| | |]; cbn [rbind opt_map_res]; try reflexivity.
  rewrite (map_res_ext _ (nested_object P_TextRunData i o')); [reflexivity|].
  intro s. exact (al_nested o o' H P_TextRunData i s eq_refl).
Qed.
Ltac alike' H := unwrap; alike H; match type of H with object_alike ?o ?o' =>
  rewrite ?(al_tags_parse o o' H), ?(al_text_run_data_parse o o' H) end.
Lemma al_toc_parse o o' : object_alike o o' -> toc_parse o = toc_parse o'.
Proof. intro H. unfold toc_parse. alike' H. reflexivity. Qed.
Lemma al_section_node_parse o o' : object_alike o o' -> section_node_parse o = section_node_parse o'.
Proof. intro H. unfold section_node_parse. alike' H. reflexivity. Qed.
Lemma al_section_metadata_parse o o' : object_alike o o' -> section_metadata_parse o = section_metadata_parse o'.
Proof. intro H. unfold section_metadata_parse. alike' H. reflexivity. Qed.
Lemma al_page_series_node_parse o o' : object_alike o o' -> page_series_node_parse o = page_series_node_parse o'.
Proof. intro H. unfold page_series_node_parse. alike' H. reflexivity. Qed.
Lemma al_page_node_parse o o' : object_alike o o' -> page_node_parse o = page_node_parse o'.
Proof. intro H. unfold page_node_parse. alike' H. reflexivity. Qed.
Lemma al_page_metadata_parse o o' : object_alike o o' -> page_metadata_parse o = page_metadata_parse o'.
Proof. intro H. unfold page_metadata_parse. alike' H. reflexivity. Qed.
Lemma al_page_manifest_parse o o' : object_alike o o' -> page_manifest_parse o = page_manifest_parse o'.
Proof. intro H. unfold page_manifest_parse. alike' H. reflexivity. Qed.
Lemma al_title_node_parse o o' : object_alike o o' -> title_node_parse o = title_node_parse o'.
Proof. intro H. unfold title_node_parse. alike' H. reflexivity. Qed.
Lemma al_embedded_file_container_parse o o' : object_alike o o' -> embedded_file_container_parse o = embedded_file_container_parse o'.
Proof. intro H. unfold embedded_file_container_parse. alike' H. reflexivity. Qed.
Lemma al_embedded_file_node_parse o o' : object_alike o o' -> embedded_file_node_parse o = embedded_file_node_parse o'.
Proof. intro H. unfold embedded_file_node_parse. alike' H. reflexivity. Qed.
Lemma al_picture_container_parse o o' : object_alike o o' -> picture_container_parse o = picture_container_parse o'.
Proof. intro H. unfold picture_container_parse. alike' H. reflexivity. Qed.
Lemma al_iframe_node_parse o o' : object_alike o o' -> iframe_node_parse o = iframe_node_parse o'.
Proof. intro H. unfold iframe_node_parse. alike' H. reflexivity. Qed.
Lemma al_image_node_parse o o' : object_alike o o' -> image_node_parse o = image_node_parse o'.
Proof. intro H. unfold image_node_parse. alike' H. reflexivity. Qed.
Lemma al_embedded_ink_parse o o' : object_alike o o' -> embedded_ink_parse o = embedded_ink_parse o'.
Proof. intro H. unfold embedded_ink_parse. alike' H. reflexivity. Qed.
Lemma al_ink_container_parse o o' : object_alike o o' -> ink_container_parse o = ink_container_parse o'.
Proof. intro H. unfold ink_container_parse. alike' H. reflexivity. Qed.
Lemma al_ink_data_node_parse o o' : object_alike o o' -> ink_data_node_parse o = ink_data_node_parse o'.
Proof. intro H. unfold ink_data_node_parse. alike' H. reflexivity. Qed.
Lemma al_ink_stroke_node_parse o o' : object_alike o o' -> ink_stroke_node_parse o = ink_stroke_node_parse o'.
Proof. intro H. unfold ink_stroke_node_parse. alike' H. reflexivity. Qed.
Lemma al_stroke_properties_parse o o' : object_alike o o' -> stroke_properties_parse o = stroke_properties_parse o'.
Proof. intro H. unfold stroke_properties_parse. alike' H. reflexivity. Qed.
Lemma al_math_data_parse o o' : object_alike o o' -> math_data_parse o = math_data_parse o'.
Proof. intro H. unfold math_data_parse. alike' H. reflexivity. Qed.
Lemma al_tag_definition_parse o o' : object_alike o o' -> tag_definition_parse o = tag_definition_parse o'.
Proof. intro H. unfold tag_definition_parse. alike' H. reflexivity. Qed.
Lemma al_number_list_parse o o' : object_alike o o' -> number_list_parse o = number_list_parse o'.
Proof. intro H. unfold number_list_parse. alike' H. reflexivity. Qed.
Lemma al_style_parse o o' : object_alike o o' -> style_parse o = style_parse o'.
Proof. intro H. unfold style_parse. alike' H. reflexivity. Qed.
Lemma al_rich_text_node_parse o o' : object_alike o o' -> rich_text_node_parse o = rich_text_node_parse o'.
Proof. intro H. unfold rich_text_node_parse. alike' H. reflexivity. Qed.
Lemma al_outline_element_node_parse o o' : object_alike o o' -> outline_element_node_parse o = outline_element_node_parse o'.
Proof. intro H. unfold outline_element_node_parse. alike' H. reflexivity. Qed.
Lemma al_outline_group_node_parse o o' : object_alike o o' -> outline_group_node_parse o = outline_group_node_parse o'.
Proof. intro H. unfold outline_group_node_parse. alike' H. reflexivity. Qed.
Lemma al_outline_node_parse o o' : object_alike o o' -> outline_node_parse o = outline_node_parse o'.
Proof. intro H. unfold outline_node_parse. alike' H. reflexivity. Qed.
Lemma al_table_cell_node_parse o o' : object_alike o o' -> table_cell_node_parse o = table_cell_node_parse o'.
Proof. intro H. unfold table_cell_node_parse. alike' H. reflexivity. Qed.
Lemma al_table_node_parse o o' : object_alike o o' -> table_node_parse o = table_node_parse o'.
Proof. intro H. unfold table_node_parse. alike' H. reflexivity. Qed.
Lemma al_table_row_node_parse o o' : object_alike o o' -> table_row_node_parse o = table_row_node_parse o'.
Proof. intro H. unfold table_row_node_parse. alike' H. reflexivity. Qed.

(** ** Documents *)
(** Both succeed with related results, or both fail alike. *)
Definition both {A} (R : A -> A -> Prop) (r r' : res A) : Prop :=
  match r, r' with
  | Ok a, Ok a' => R a a'
  | Err e, Err e' => e = e'
  | Panic, Panic => True
  | OutOfFuel, OutOfFuel => True
  | _, _ => False
  end.
Lemma both_eq {A} (r r' : res A) : both eq r r' <-> r = r'.
Proof.
  destruct r, r'; cbn; split; intro H; try contradiction; try discriminate; try congruence; auto;
    now injection H.
Qed.
Lemma bind_alike {A B} (R : A -> A -> Prop) (r r' : res A) (f f' : A -> res B) :
  both R r r' -> (forall a a', R a a' -> f a = f' a') -> rbind r f = rbind r' f'.
Proof. intros H F. destruct r, r'; cbn in *; try contradiction; auto. now rewrite H. Qed.
Lemma bind_same {A B} (r r' : res A) (f f' : A -> res B) :
  r = r' -> (forall a, f a = f' a) -> rbind r f = rbind r' f'.
Proof. intros -> F. now apply rbind_ext. Qed.
Lemma need_alike sp sp' id : space_alike sp sp' -> both object_alike (need_object id sp) (need_object id sp').
Proof.
  intros (_ & _ & O). specialize (O id). unfold need_object.
  destruct (get_object sp id), (get_object sp' id); cbn; auto; contradiction.
Qed.
Lemma opt_same {A B} (f f' : A -> res B) o : (forall a, f a = f' a) -> opt_map_res f o = opt_map_res f' o.
Proof. intro H. destruct o; cbn; [now rewrite H|reflexivity]. Qed.
Lemma al_need_kind o o' : object_alike o o' -> need_kind o = need_kind o'.
Proof. intro H. unfold need_kind. now rewrite (al_jcid o o' H). Qed.

Create HintDb alike discriminated.
#[export] Hint Resolve al_need_kind al_tag_parse_data al_tags_parse al_text_run_data_parse al_toc_parse al_section_node_parse al_section_metadata_parse al_page_series_node_parse al_page_node_parse al_page_metadata_parse al_page_manifest_parse al_title_node_parse al_embedded_file_container_parse al_embedded_file_node_parse al_picture_container_parse al_iframe_node_parse al_image_node_parse al_embedded_ink_parse al_ink_container_parse al_ink_data_node_parse al_ink_stroke_node_parse al_stroke_properties_parse al_math_data_parse al_tag_definition_parse al_number_list_parse al_style_parse al_rich_text_node_parse al_outline_element_node_parse al_outline_group_node_parse al_outline_node_parse al_table_cell_node_parse al_table_node_parse al_table_row_node_parse : alike.
Ltac al_step :=
  cbv beta zeta;
  lazymatch goal with
  | |- ?r = ?r => reflexivity
  | |- rbind (need_object ?i ?sp) _ = rbind (need_object ?i ?sp') _ =>
    apply (bind_alike object_alike); [apply need_alike; assumption|intros ? ? ?]
  | |- rbind _ _ = rbind _ _ => apply bind_same; [|intro]
  | |- opt_map_res _ _ = opt_map_res _ _ => apply opt_same; intro
  | |- map_res _ _ = map_res _ _ => apply map_res_ext; intro
  | |- (match ?x with _ => _ end) = (match ?x with _ => _ end) => destruct x
  | |- _ => solve [eauto with alike nocore]
  end.
Ltac al := repeat al_step.
Ltac al_known f := intros; unfold f; al.
Lemma al_tag_definition sp sp' id : space_alike sp sp' -> note_tag_definition id sp = note_tag_definition id sp'.
Proof. al_known note_tag_definition. Qed.
#[export] Hint Resolve al_tag_definition : alike.
Lemma al_note_tags sp sp' l : space_alike sp sp' -> note_tags l sp = note_tags l sp'.
Proof. al_known note_tags. Qed.
#[export] Hint Resolve al_note_tags : alike.
Lemma al_list sp sp' id : space_alike sp sp' -> parse_list id sp = parse_list id sp'.
Proof. al_known parse_list. Qed.
#[export] Hint Resolve al_list : alike.
Lemma al_iframe sp sp' id : space_alike sp sp' -> parse_iframe id sp = parse_iframe id sp'.
Proof. al_known parse_iframe. Qed.
#[export] Hint Resolve al_iframe : alike.
Lemma al_embedded_file sp sp' id : space_alike sp sp' -> parse_embedded_file id sp = parse_embedded_file id sp'.
Proof. al_known parse_embedded_file. Qed.
#[export] Hint Resolve al_embedded_file : alike.
Lemma al_image sp sp' id : space_alike sp sp' -> parse_image id sp = parse_image id sp'.
Proof.
  intro W. unfold parse_image. al_step. al_step; [al|]. destruct (im_picture_container a0) as [c|]; cbn [opt_map_res]; [|al].
  pose proof (need_alike sp sp' c W) as N. destruct (need_object c sp), (need_object c sp'); cbn in N; try contradiction;
    cbn [rbind opt_map_res]; [|congruence|reflexivity|reflexivity]. al.
Qed.
#[export] Hint Resolve al_image : alike.
Lemma al_stroke sp sp' id x y : space_alike sp sp' -> parse_ink_stroke id sp x y = parse_ink_stroke id sp' x y.
Proof. al_known parse_ink_stroke. Qed.
#[export] Hint Resolve al_stroke : alike.
Lemma al_ink_data sp sp' id x y : space_alike sp sp' -> parse_ink_data id sp x y = parse_ink_data id sp' x y.
Proof. al_known parse_ink_data. Qed.
#[export] Hint Resolve al_ink_data : alike.
Lemma al_ink sp sp' id : space_alike sp sp' -> parse_ink id sp = parse_ink id sp'.
Proof. al_known parse_ink. Qed.
#[export] Hint Resolve al_ink : alike.
Lemma al_embedded_ink sp sp' id d : space_alike sp sp' -> parse_embedded_ink id sp d = parse_embedded_ink id sp' d.
Proof. al_known parse_embedded_ink. Qed.
#[export] Hint Resolve al_embedded_ink : alike.
Lemma al_embedded sp sp' refs objs i k : space_alike sp sp' ->
  embedded_objects sp refs i k objs = embedded_objects sp' refs i k objs.
Proof.
  intro W. revert i k. induction objs as [|[t d] objs IH]; intros i k; cbn [embedded_objects]; al; apply IH.
Qed.
#[export] Hint Resolve al_embedded : alike.
Lemma al_rich_text sp sp' id : space_alike sp sp' -> parse_rich_text id sp = parse_rich_text id sp'.
Proof. al_known parse_rich_text. now rewrite (al_text_run_data_parse a a'). Qed.
#[export] Hint Resolve al_rich_text : alike.

Lemma al_outlines sp sp' : space_alike sp sp' -> forall f,
  (forall i, parse_outline_item f sp i = parse_outline_item f sp' i) /\
  (forall i, parse_outline_element f sp i = parse_outline_element f sp' i) /\
  (forall i, parse_content f sp i = parse_content f sp' i).
Proof.
  intros W f. induction f as [|f (I1 & I2 & I3)].
  - repeat split; intro; reflexivity.
  - repeat split; intro i; cbn [parse_outline_item parse_outline_element parse_content]; al; auto.
    unfold parse_table, parse_row, parse_cell. al.
Qed.
Lemma al_item sp sp' f id : space_alike sp sp' -> parse_outline_item f sp id = parse_outline_item f sp' id.
Proof. intros. now apply al_outlines. Qed.
#[export] Hint Resolve al_item : alike.
Lemma al_outline sp sp' f id : space_alike sp sp' -> parse_outline f sp id = parse_outline f sp' id.
Proof. al_known parse_outline. Qed.
#[export] Hint Resolve al_outline : alike.
Lemma al_page_content sp sp' f id : space_alike sp sp' -> parse_page_content f sp id = parse_page_content f sp' id.
Proof. al_known parse_page_content. Qed.
Lemma al_title sp sp' f id : space_alike sp sp' -> parse_title f sp id = parse_title f sp' id.
Proof. al_known parse_title. Qed.
#[export] Hint Resolve al_page_content al_title : alike.
Lemma al_page sp sp' f : space_alike sp sp' -> parse_page f sp = parse_page f sp'.
Proof.
  intros W. pose proof W as (C & M & _). unfold parse_page, page_metadata, page_manifest, page_node. rewrite C, M. al.
Qed.
Lemma al_section st st' f n : store_alike st st' -> Doc.parse_section f st n = Doc.parse_section f st' n.
Proof.
  intros (W & S). pose proof W as (C & M & _).
  unfold Doc.parse_section, section_metadata, section_content. rewrite C, M. al.
  unfold parse_page_series. apply (bind_alike object_alike); [now apply need_alike|]. intros o o' O.
  apply bind_same; [al|]. intro d. apply map_res_ext. intro c. specialize (S c).
  destruct (object_space st c), (object_space st' c); cbn [ok_or rbind]; try contradiction; [|reflexivity].
  now apply al_page.
Qed.
Lemma al_toc sp sp' f : space_alike sp sp' -> parse_toc f sp = parse_toc f sp'.
Proof.
  intros W. pose proof W as (C & M & _). unfold parse_toc. rewrite C. al.
  revert a. induction f as [|f IH]; intro i; cbn [parse_toc_entry]; al.
Qed.
