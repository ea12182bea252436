(** Proofs for C91: references and nodes. *)
From Coq Require Import Lia ZifyBool ZifyNat ZifyN.
From Verif Require Import Base BaseProofs Codec Package PropSet PropIds Store Shapes Props Nodes Doc Notebook RefsProofs ForwardProofs SameProofs NotebookProofs3 Target TargetDoc SpecTarget.

Lemma pvalue_sets_ind (P : pvalue -> Prop) : (forall v, (forall i sets, v <> VPropertyValues i sets) -> P v) ->
  (forall i sets, (forall s, In s sets -> forall e, In e s -> P (snd (snd e))) -> P (VPropertyValues i sets)) -> forall v, P v.
Proof.
  intros H1 H2. fix F 1. intros [| | | | | | | | | | | | |i sets|s]; try (apply H1; discriminate).
  apply H2. induction sets as [|s sets IH]; [intros ? []|]. intros s' [<-|I]; [|exact (IH s' I)].
  clear IH. induction s as [|e s IH]; [intros ? []|]. intros e' [<-|I]; [destruct e as (a & b & c); exact (F c)|exact (IH e' I)].
Qed.
Lemma fold_sum {A} (f : A -> N) l : fold_right (fun x n => f x + n) 0 l = sumN f l.
Proof. induction l as [|x l IH]; [reflexivity|]. cbn [fold_right sumN]. now rewrite IH. Qed.
Lemma sumN_le {A} (f g : A -> N) l : (forall x, In x l -> f x <= g x) -> sumN f l <= sumN g l.
Proof. induction l as [|x l IH]; intro H; [reflexivity|]. rewrite !sumN_cons. pose proof (H x (or_introl eq_refl)). specialize (IH (fun y I => H y (or_intror I))). lia. Qed.
Lemma sumN_in {A} (f : A -> N) l x : In x l -> f x <= sumN f l.
Proof. induction l as [|y l IH]; [intros []|]. rewrite sumN_cons. intros [->|I]; [lia|]. specialize (IH I). lia. Qed.
Lemma sumN_map {A B} (f : B -> N) (g : A -> B) l : sumN f (map g l) = sumN (fun x => f (g x)) l.
Proof. induction l as [|x l IH]; [reflexivity|]. cbn [map]. now rewrite !sumN_cons, IH. Qed.
Lemma sumN_filter {A} (f : A -> N) p l : sumN f (filter p l) <= sumN f l.
Proof. induction l as [|x l IH]; [reflexivity|]. cbn [filter]. destruct (p x); rewrite ?sumN_cons; lia. Qed.
Lemma sumN_plus {A} (f g : A -> N) l : sumN (fun x => f x + g x) l = sumN f l + sumN g l.
Proof. induction l as [|x l IH]; [reflexivity|]. rewrite !sumN_cons, IH. lia. Qed.

Lemma references_sets i sets : references (VPropertyValues i sets) = sumN (fun s => sumN (fun e => references (snd (snd e))) s) sets.
Proof.
  change (references (VPropertyValues i sets)) with (fold_right (fun s n => fold_right (fun e m => references (snd (snd e)) + m) 0 s + n) 0 sets).
  rewrite fold_sum. apply sumN_ext. intros s _. apply fold_sum.
Qed.
Lemma count_sets i sets : count_object_refs (VPropertyValues i sets) = sumN (fun s => sumN (fun e => count_object_refs (snd (snd e))) s) sets.
Proof. cbn [count_object_refs]. apply sumN_ext. intros s _. apply sumN_ext. now intros (a & b & c) _. Qed.
Lemma count_space_sets i sets : count_space_refs (VPropertyValues i sets) = sumN (fun s => sumN (fun e => count_space_refs (snd (snd e))) s) sets.
Proof. cbn [count_space_refs]. apply sumN_ext. intros s _. apply sumN_ext. now intros (a & b & c) _. Qed.
Lemma references_counts v : references v = count_object_refs v + count_space_refs v.
Proof.
  induction v as [v H|i sets IH] using pvalue_sets_ind; [destruct v; try reflexivity; try (exfalso; eapply H; reflexivity); cbn; lia|].
  rewrite references_sets, count_sets, count_space_sets, <- sumN_plus. apply sumN_ext. intros s Is. rewrite <- sumN_plus. apply sumN_ext. intros e Ie. now apply (IH s).
Qed.
Lemma announced_sum o : announced o = sumN (fun e => references (snd (snd e))) (op_props (ob_props o)).
Proof. unfold announced. now rewrite fold_sum. Qed.

Section Same.
  Context (T : target).
  Local Notation W := (usize_count T).
  Definition light (o : object) : Prop := announced o < W.

  Lemma usize_sum_small {A} (f : A -> res N) (g : A -> N) l : forall acc, (forall x, In x l -> f x = Ok (g x)) -> acc + sumN g l < W ->
    usize_sum T f acc l = Ok (acc + sumN g l).
  Proof.
    induction l as [|x l IH]; intros acc H L; [cbn; f_equal; lia|]. rewrite sumN_cons in L |- *. cbn [usize_sum]. rewrite (H x (or_introl eq_refl)). cbn [rbind].
    unfold usize_add. destruct (N.ltb_spec (acc + g x) W) as [_|Q]; [|lia]. cbn [rbind]. fold (usize_sum T f).
    rewrite IH; [f_equal; lia|intros y I; apply H; now right|lia].
  Qed.
  Lemma usize_sum_0 {A} (f : A -> res N) (g : A -> N) l : (forall x, In x l -> f x = Ok (g x)) -> sumN g l < W -> usize_sum T f 0 l = Ok (sumN g l).
  Proof. intros H L. now rewrite (usize_sum_small f g) by assumption. Qed.
  Lemma usize_small n : n < W -> as_usize T n = n.
  Proof. apply N.mod_small. Qed.
  Lemma count_objects_small v : 1 < W -> count_object_refs v < W -> count_object_refs_on T v = Ok (count_object_refs v).
  Proof.
    intros W1. induction v as [v H|i sets IH] using pvalue_sets_ind; intros L.
    - destruct v; try reflexivity; try (exfalso; eapply H; reflexivity). cbn [count_object_refs_on count_object_refs] in *. now rewrite usize_small.
    - rewrite count_sets in *. cbn [count_object_refs_on]. apply (usize_sum_0 _ (fun s => sumN (fun e => count_object_refs (snd (snd e))) s)); [|exact L].
      intros s Is. pose proof (sumN_in (fun s => sumN (fun e => count_object_refs (snd (snd e))) s) sets s Is) as Ls. cbn beta in Ls.
      apply (usize_sum_0 _ (fun e => count_object_refs (snd (snd e)))); [|lia]. intros (a & b & c) Ie.
      pose proof (sumN_in (fun e => count_object_refs (snd (snd e))) s _ Ie) as Le. cbn [snd] in *. refine (IH s Is (a, (b, c)) Ie _). cbn [snd]. lia.
  Qed.
  Lemma count_spaces_small v : 1 < W -> count_space_refs v < W -> count_space_refs_on T v = Ok (count_space_refs v).
  Proof.
    intros W1. induction v as [v H|i sets IH] using pvalue_sets_ind; intros L.
    - destruct v; try reflexivity; try (exfalso; eapply H; reflexivity). cbn [count_space_refs_on count_space_refs] in *. now rewrite usize_small.
    - rewrite count_space_sets in *. cbn [count_space_refs_on]. apply (usize_sum_0 _ (fun s => sumN (fun e => count_space_refs (snd (snd e))) s)); [|exact L].
      intros s Is. pose proof (sumN_in (fun s => sumN (fun e => count_space_refs (snd (snd e))) s) sets s Is) as Ls. cbn beta in Ls.
      apply (usize_sum_0 _ (fun e => count_space_refs (snd (snd e)))); [|lia]. intros (a & b & c) Ie.
      pose proof (sumN_in (fun e => count_space_refs (snd (snd e))) s _ Ie) as Le. cbn [snd] in *. refine (IH s Is (a, (b, c)) Ie _). cbn [snd]. lia.
  Qed.
  Context (W1 : 1 < W).
  (** Values that announce little. *)
  Lemma values_small vs : sumN references vs < W -> usize_sum T (count_object_refs_on T) 0 vs = Ok (sumN count_object_refs vs) /\
    usize_sum T (count_space_refs_on T) 0 vs = Ok (sumN count_space_refs vs).
  Proof.
    intros L. assert (Q : sumN references vs = sumN count_object_refs vs + sumN count_space_refs vs).
    { rewrite <- sumN_plus. apply sumN_ext. intros v _. apply references_counts. }
    split; apply usize_sum_0; try lia; intros v I.
    - apply count_objects_small; [exact W1|]. pose proof (sumN_in count_object_refs vs v I). lia.
    - apply count_spaces_small; [exact W1|]. pose proof (sumN_in count_space_refs vs v I). lia.
  Qed.
  Lemma predecessors_light id o ps : light o -> predecessors id o = Ok ps -> sumN references ps < W.
  Proof.
    unfold light. rewrite announced_sum. intros L E. unfold predecessors in E. destruct (ok_or _ _) as [i| | |]; cbn [rbind] in E; try discriminate E.
    injection E as <-. rewrite sumN_map. eapply N.le_lt_trans; [|exact L]. eapply N.le_trans; [apply sumN_filter|]. rewrite sumN_map. reflexivity.
  Qed.
  Lemma offset_same id o : light o -> object_offset_on T id o = object_offset id o.
  Proof.
    intro L. unfold object_offset_on, object_offset. destruct (predecessors id o) as [ps| | |] eqn:E; try reflexivity. cbn [rbind].
    now apply values_small, (predecessors_light id o).
  Qed.
  Lemma space_offset_same id o : light o -> space_offset_on T id o = space_offset id o.
  Proof.
    intro L. unfold space_offset_on, space_offset. destruct (predecessors id o) as [ps| | |] eqn:E; try reflexivity. cbn [rbind].
    now apply values_small, (predecessors_light id o).
  Qed.
  Lemma got_light {A} (conv : pvalue -> option A) id o a : light o -> get_prop conv id o = Ok (Some a) -> exists v, conv v = Some a /\ references v < W.
  Proof.
    unfold light. rewrite announced_sum. unfold get_prop, oprops_get, propset_get. intros L E. destruct (alookup _ _ _) as [[k v]|] eqn:Z; [|discriminate E].
    cbn [option_map opt_map_res snd] in E. exists v. destruct (conv v) as [x|]; cbn [ok_or rbind] in E; [injection E as ->|discriminate E]. split; [reflexivity|].
    apply n_alookup_in in Z. pose proof (sumN_in (fun e => references (snd (snd e))) _ _ Z) as Q. cbn [snd] in Q. lia.
  Qed.
  Lemma prop_object_same id o : light o -> prop_object_on T id o = prop_object id o.
  Proof. intro L. unfold prop_object_on, prop_object. now rewrite offset_same. Qed.
  Lemma prop_objects_same id o : light o -> prop_objects_on T id o = prop_objects id o.
  Proof.
    intro L. unfold prop_objects_on, prop_objects. rewrite offset_same by exact L. destruct (get_prop to_object_ids id o) as [[n|]| | |] eqn:E; try reflexivity.
    apply got_light in E as (v & Ev & Lv); [|exact L]. destruct v; try discriminate Ev. injection Ev as ->. cbn [references rbind] in Lv |- *. now rewrite usize_small.
  Qed.
  Lemma prop_spaces_same id o : light o -> prop_spaces_on T id o = prop_spaces id o.
  Proof.
    intro L. unfold prop_spaces_on, prop_spaces. rewrite space_offset_same by exact L. destruct (get_prop to_object_space_ids id o) as [[n|]| | |] eqn:E; try reflexivity.
    apply got_light in E as (v & Ev & Lv); [|exact L]. destruct v; try discriminate Ev. injection Ev as ->. cbn [references rbind] in Lv |- *. now rewrite usize_small.
  Qed.
  Lemma refs_same id o : light o -> refs_of_on T id o = refs_of id o.
  Proof. intro L. unfold refs_of_on, refs_of. now rewrite prop_objects_same. Qed.
  Lemma nested_same p id o s : light o -> sumN (fun e => references (snd (snd e))) s < W -> nested_object_on T p id o s = nested_object p id o s.
  Proof.
    intros L Ls. unfold nested_object_on, nested_object. cbv zeta. rewrite offset_same, space_offset_same by exact L.
    destruct (values_small (map (fun e => snd (snd e)) s)) as (-> & ->); [rewrite sumN_map; exact Ls|]. cbn [rbind]. reflexivity.
  Qed.
  Lemma nested_light p id o s x : sumN (fun e => references (snd (snd e))) s < W -> nested_object p id o s = Ok x -> light x.
  Proof.
    intros L E. unfold nested_object in E. cbv zeta in E. destruct (object_offset p o); cbn [rbind] in E; try discriminate E.
    destruct (space_offset p o); cbn [rbind] in E; try discriminate E. injection E as <-. unfold light. rewrite announced_sum. exact L.
  Qed.
  Lemma sets_light id o i sets : light o -> get_prop to_property_values id o = Ok (Some (i, sets)) -> forall s, In s sets -> sumN (fun e => references (snd (snd e))) s < W.
  Proof.
    intros L E s Is. apply got_light in E as (v & Ev & Lv); [|exact L]. destruct v; try discriminate Ev. injection Ev as -> ->. rewrite references_sets in Lv.
    pose proof (sumN_in (fun s => sumN (fun e => references (snd (snd e))) s) sets s Is) as Q. cbn beta in Q. lia.
  Qed.
  Lemma tags_same o : light o -> tags_parse_on T o = tags_parse o.
  Proof.
    intro L. unfold tags_parse_on, tags_parse. destruct (get_prop to_property_values P_NoteTags o) as [[[i sets]|]| | |] eqn:E; try reflexivity. cbn [rbind opt_map_res].
    f_equal. apply map_res_ext_in. intros s Is. pose proof (sets_light _ _ _ _ L E s Is) as Ls. rewrite nested_same by assumption.
    destruct (nested_object P_NoteTags i o s) as [t| | |] eqn:Z; try reflexivity. cbn [rbind]. apply nested_light in Z; [|exact Ls].
    unfold tag_parse_data_on, tag_parse_data. now rewrite prop_object_same.
  Qed.
  Lemma runs_same o : light o -> text_run_data_parse_on T o = text_run_data_parse o.
  Proof.
    intro L. unfold text_run_data_parse_on, text_run_data_parse. destruct (get_prop to_property_values P_TextRunData o) as [[[i sets]|]| | |] eqn:E; try reflexivity. cbn [rbind opt_map_res].
    f_equal. apply map_res_ext_in. intros s Is. apply nested_same; [exact L|]. exact (sets_light _ _ _ _ L E s Is).
  Qed.
  Lemma toc_parse_same o : light o -> toc_parse_on T o = toc_parse o.
  Proof. intro L. unfold toc_parse_on, toc_parse. now rewrite ?prop_object_same, ?prop_objects_same, ?prop_spaces_same, ?refs_same, ?tags_same by exact L. Qed.
  Lemma section_node_parse_same o : light o -> section_node_parse_on T o = section_node_parse o.
  Proof. intro L. unfold section_node_parse_on, section_node_parse. now rewrite ?prop_object_same, ?prop_objects_same, ?prop_spaces_same, ?refs_same, ?tags_same by exact L. Qed.
  Lemma page_series_node_parse_same o : light o -> page_series_node_parse_on T o = page_series_node_parse o.
  Proof. intro L. unfold page_series_node_parse_on, page_series_node_parse. now rewrite ?prop_object_same, ?prop_objects_same, ?prop_spaces_same, ?refs_same, ?tags_same by exact L. Qed.
  Lemma page_node_parse_same o : light o -> page_node_parse_on T o = page_node_parse o.
  Proof. intro L. unfold page_node_parse_on, page_node_parse. now rewrite ?prop_object_same, ?prop_objects_same, ?prop_spaces_same, ?refs_same, ?tags_same by exact L. Qed.
  Lemma page_manifest_parse_same o : light o -> page_manifest_parse_on T o = page_manifest_parse o.
  Proof. intro L. unfold page_manifest_parse_on, page_manifest_parse. now rewrite ?prop_object_same, ?prop_objects_same, ?prop_spaces_same, ?refs_same, ?tags_same by exact L. Qed.
  Lemma title_node_parse_same o : light o -> title_node_parse_on T o = title_node_parse o.
  Proof. intro L. unfold title_node_parse_on, title_node_parse. now rewrite ?prop_object_same, ?prop_objects_same, ?prop_spaces_same, ?refs_same, ?tags_same by exact L. Qed.
  Lemma embedded_file_node_parse_same o : light o -> embedded_file_node_parse_on T o = embedded_file_node_parse o.
  Proof. intro L. unfold embedded_file_node_parse_on, embedded_file_node_parse. now rewrite ?prop_object_same, ?prop_objects_same, ?prop_spaces_same, ?refs_same, ?tags_same by exact L. Qed.
  Lemma image_node_parse_same o : light o -> image_node_parse_on T o = image_node_parse o.
  Proof. intro L. unfold image_node_parse_on, image_node_parse. now rewrite ?prop_object_same, ?prop_objects_same, ?prop_spaces_same, ?refs_same, ?tags_same by exact L. Qed.
  Lemma ink_container_parse_same o : light o -> ink_container_parse_on T o = ink_container_parse o.
  Proof. intro L. unfold ink_container_parse_on, ink_container_parse. now rewrite ?prop_object_same, ?prop_objects_same, ?prop_spaces_same, ?refs_same, ?tags_same by exact L. Qed.
  Lemma ink_data_node_parse_same o : light o -> ink_data_node_parse_on T o = ink_data_node_parse o.
  Proof. intro L. unfold ink_data_node_parse_on, ink_data_node_parse. now rewrite ?prop_object_same, ?prop_objects_same, ?prop_spaces_same, ?refs_same, ?tags_same by exact L. Qed.
  Lemma ink_stroke_node_parse_same o : light o -> ink_stroke_node_parse_on T o = ink_stroke_node_parse o.
  Proof. intro L. unfold ink_stroke_node_parse_on, ink_stroke_node_parse. now rewrite ?prop_object_same, ?prop_objects_same, ?prop_spaces_same, ?refs_same, ?tags_same by exact L. Qed.
  Lemma rich_text_node_parse_same o : light o -> rich_text_node_parse_on T o = rich_text_node_parse o.
  Proof. intro L. unfold rich_text_node_parse_on, rich_text_node_parse. now rewrite ?prop_object_same, ?prop_objects_same, ?prop_spaces_same, ?refs_same, ?tags_same by exact L. Qed.
  Lemma outline_element_node_parse_same o : light o -> outline_element_node_parse_on T o = outline_element_node_parse o.
  Proof. intro L. unfold outline_element_node_parse_on, outline_element_node_parse. now rewrite ?prop_object_same, ?prop_objects_same, ?prop_spaces_same, ?refs_same, ?tags_same by exact L. Qed.
  Lemma outline_group_node_parse_same o : light o -> outline_group_node_parse_on T o = outline_group_node_parse o.
  Proof. intro L. unfold outline_group_node_parse_on, outline_group_node_parse. now rewrite ?prop_object_same, ?prop_objects_same, ?prop_spaces_same, ?refs_same, ?tags_same by exact L. Qed.
  Lemma outline_node_parse_same o : light o -> outline_node_parse_on T o = outline_node_parse o.
  Proof. intro L. unfold outline_node_parse_on, outline_node_parse. now rewrite ?prop_object_same, ?prop_objects_same, ?prop_spaces_same, ?refs_same, ?tags_same by exact L. Qed.
  Lemma table_cell_node_parse_same o : light o -> table_cell_node_parse_on T o = table_cell_node_parse o.
  Proof. intro L. unfold table_cell_node_parse_on, table_cell_node_parse. now rewrite ?prop_object_same, ?prop_objects_same, ?prop_spaces_same, ?refs_same, ?tags_same by exact L. Qed.
  Lemma table_node_parse_same o : light o -> table_node_parse_on T o = table_node_parse o.
  Proof. intro L. unfold table_node_parse_on, table_node_parse. now rewrite ?prop_object_same, ?prop_objects_same, ?prop_spaces_same, ?refs_same, ?tags_same by exact L. Qed.
  Lemma table_row_node_parse_same o : light o -> table_row_node_parse_on T o = table_row_node_parse o.
  Proof. intro L. unfold table_row_node_parse_on, table_row_node_parse. now rewrite ?prop_object_same, ?prop_objects_same, ?prop_spaces_same, ?refs_same, ?tags_same by exact L. Qed.
End Same.
