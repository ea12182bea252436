(** Proofs for C91: with overflow checks reading panics or is right. *)
From Coq Require Import Lia ZifyBool ZifyNat ZifyN.
From Verif Require Import Base BaseProofs Codec CodecProofs SpecCodec Package PackageProofs PropSet PropIds Store Shapes Props Nodes Doc Notebook RefsProofs ForwardProofs SameProofs NotebookProofs3
  RangeProofs Target TargetDoc SpecTarget TargetProofs TargetProofs2 TargetProofs3.

(** The second result is the first one, or a panic. *)
Definition sub {A} (r r' : res A) : Prop := r' = r \/ r' = Panic.
Lemma sub_refl {A} (r : res A) : sub r r.
Proof. now left. Qed.
Lemma sub_bind {A B} (r r' : res A) (f g : A -> res B) : sub r r' -> (forall a, r = Ok a -> sub (f a) (g a)) -> sub (rbind r f) (rbind r' g).
Proof. intros [->| ->] H; [|now right]. destruct r as [a| | |]; cbn [rbind]; [now apply H|now left..]. Qed.
Lemma sub_map {A B} (f g : A -> res B) l : (forall a, In a l -> sub (f a) (g a)) -> sub (map_res f l) (map_res g l).
Proof.
  induction l as [|x l IH]; intro H; [apply sub_refl|]. cbn [map_res]. apply sub_bind; [apply H; now left|]. intros y _.
  apply sub_bind; [apply IH; intros a I; apply H; now right|intros; apply sub_refl].
Qed.
Lemma sub_opt {A B} (f g : A -> res B) o : (forall a, o = Some a -> sub (f a) (g a)) -> sub (opt_map_res f o) (opt_map_res g o).
Proof. intro H. destruct o as [a|]; cbn [opt_map_res]; [|apply sub_refl]. apply sub_bind; [now apply H|intros; apply sub_refl]. Qed.

Section Checked.
  Context (T : target) (C : overflow_checks T = true) (W : 2 ^ 32 <= usize_count T).
  Lemma sum_sub {A} (f : A -> res N) (g : A -> N) l : (forall x, In x l -> sub (Ok (g x)) (f x)) -> forall acc, sub (Ok (acc + sumN g l)) (usize_sum T f acc l).
  Proof.
    induction l as [|x l IH]; intros H acc; [left; cbn; f_equal; lia|]. rewrite sumN_cons. cbn [usize_sum]. fold (usize_sum T f).
    destruct (H x (or_introl eq_refl)) as [->| ->]; [|now right]. cbn [rbind]. unfold usize_add. rewrite C. destruct (_ <? _); [|now right]. cbn [rbind].
    rewrite N.add_assoc. apply IH. intros y I. apply H. now right.
  Qed.
  Lemma small n : n < 2 ^ 32 -> as_usize T n = n.
  Proof. intro L. apply N.mod_small. lia. Qed.
  Lemma objects_sub v : fits v -> sub (Ok (count_object_refs v)) (count_object_refs_on T v).
  Proof.
    induction v as [v H|i sets IH] using pvalue_sets_ind; intros F.
    - destruct v; try apply sub_refl; try (exfalso; eapply H; reflexivity). cbn [count_object_refs_on count_object_refs]. inversion F; subst. rewrite small by assumption. apply sub_refl.
    - rewrite count_sets. cbn [count_object_refs_on]. inversion F as [| | | | | | | | | | | | |i' sets' K|]; subst.
      apply (sum_sub _ (fun s => sumN (fun e => count_object_refs (snd (snd e))) s) sets). intros s Is.
      apply (sum_sub _ (fun e => count_object_refs (snd (snd e))) s). intros (a & b & c) Ie. apply (IH s Is (a, (b, c)) Ie). exact (K s Is a b c Ie).
  Qed.
  Lemma spaces_sub v : fits v -> sub (Ok (count_space_refs v)) (count_space_refs_on T v).
  Proof.
    induction v as [v H|i sets IH] using pvalue_sets_ind; intros F.
    - destruct v; try apply sub_refl; try (exfalso; eapply H; reflexivity). cbn [count_space_refs_on count_space_refs]. inversion F; subst. rewrite small by assumption. apply sub_refl.
    - rewrite count_space_sets. cbn [count_space_refs_on]. inversion F as [| | | | | | | | | | | | |i' sets' K|]; subst.
      apply (sum_sub _ (fun s => sumN (fun e => count_space_refs (snd (snd e))) s) sets). intros s Is.
      apply (sum_sub _ (fun e => count_space_refs (snd (snd e))) s). intros (a & b & c) Ie. apply (IH s Is (a, (b, c)) Ie). exact (K s Is a b c Ie).
  Qed.
  Definition sized (o : object) : Prop := set_fits (op_props (ob_props o)).
  Lemma predecessors_fit id o ps : sized o -> predecessors id o = Ok ps -> forall v, In v ps -> fits v.
  Proof.
    intros L E v I. unfold predecessors in E. destruct (ok_or _ _) as [i| | |]; cbn [rbind] in E; try discriminate E. injection E as <-.
    apply in_map_iff in I as (x & <- & I). apply filter_In in I as (I & _). apply in_map_iff in I as ((a & k & v) & <- & I). cbn [snd]. exact (L a k v I).
  Qed.
  Lemma offset_sub id o : sized o -> sub (object_offset id o) (object_offset_on T id o).
  Proof.
    intro L. unfold object_offset_on, object_offset. apply sub_bind; [apply sub_refl|]. intros ps E.
    apply (sum_sub (count_object_refs_on T) count_object_refs ps). intros v I. apply objects_sub. exact (predecessors_fit _ _ _ L E v I).
  Qed.
  Lemma space_offset_sub id o : sized o -> sub (space_offset id o) (space_offset_on T id o).
  Proof.
    intro L. unfold space_offset_on, space_offset. apply sub_bind; [apply sub_refl|]. intros ps E.
    apply (sum_sub (count_space_refs_on T) count_space_refs ps). intros v I. apply spaces_sub. exact (predecessors_fit _ _ _ L E v I).
  Qed.
  Lemma got_fits {A} (conv : pvalue -> option A) id o a : sized o -> get_prop conv id o = Ok (Some a) -> exists v, conv v = Some a /\ fits v.
  Proof.
    unfold get_prop, oprops_get, propset_get. intros L E. destruct (alookup _ _ _) as [[k v]|] eqn:Z; [|discriminate E].
    cbn [option_map opt_map_res snd] in E. exists v. destruct (conv v) as [x|]; cbn [ok_or rbind] in E; [injection E as ->|discriminate E]. split; [reflexivity|].
    apply n_alookup_in in Z. exact (L _ _ _ Z).
  Qed.
  Lemma prop_object_sub id o : sized o -> sub (prop_object id o) (prop_object_on T id o).
  Proof.
    intro L. unfold prop_object_on, prop_object. apply sub_bind; [apply sub_refl|]. intros [x|] _; [|apply sub_refl].
    apply sub_bind; [now apply offset_sub|intros; apply sub_refl].
  Qed.
  Lemma prop_objects_sub id o : sized o -> sub (prop_objects id o) (prop_objects_on T id o).
  Proof.
    intro L. unfold prop_objects_on, prop_objects. apply sub_bind; [apply sub_refl|]. intros [n|] E; [|apply sub_refl].
    apply got_fits in E as (v & Ev & F); [|exact L]. destruct v; try discriminate Ev. injection Ev as ->. inversion F; subst. rewrite small by assumption.
    apply sub_bind; [now apply offset_sub|intros; apply sub_refl].
  Qed.
  Lemma prop_spaces_sub id o : sized o -> sub (prop_spaces id o) (prop_spaces_on T id o).
  Proof.
    intro L. unfold prop_spaces_on, prop_spaces. apply sub_bind; [apply sub_refl|]. intros [n|] E; [|apply sub_refl].
    apply got_fits in E as (v & Ev & F); [|exact L]. destruct v; try discriminate Ev. injection Ev as ->. inversion F; subst. rewrite small by assumption.
    apply sub_bind; [now apply space_offset_sub|intros; apply sub_refl].
  Qed.
  Lemma refs_sub id o : sized o -> sub (refs_of id o) (refs_of_on T id o).
  Proof. intro L. unfold refs_of_on, refs_of. apply sub_bind; [now apply prop_objects_sub|intros; apply sub_refl]. Qed.
  Lemma nested_sub p id o s : sized o -> set_fits s -> sub (nested_object p id o s) (nested_object_on T p id o s).
  Proof.
    intros L Ls. unfold nested_object_on, nested_object. cbv zeta. apply sub_bind; [now apply offset_sub|]. intros a _. 
    assert (F : forall v, In v (map (fun e => snd (snd e)) s) -> fits v) by (intros v I; apply in_map_iff in I as ((x & k & w) & <- & I); exact (Ls x k w I)).
    destruct (sum_sub (count_object_refs_on T) count_object_refs (map (fun e => snd (snd e)) s) (fun v I => objects_sub v (F v I)) 0) as [->| ->]; [|now right]. cbn [rbind].
    apply sub_bind; [now apply space_offset_sub|]. intros b _.
    destruct (sum_sub (count_space_refs_on T) count_space_refs (map (fun e => snd (snd e)) s) (fun v I => spaces_sub v (F v I)) 0) as [->| ->]; [|now right].
    now left.
  Qed.
  Lemma nested_sized p id o s x : set_fits s -> nested_object p id o s = Ok x -> sized x.
  Proof.
    intros L E. unfold nested_object in E. cbv zeta in E. destruct (object_offset p o); cbn [rbind] in E; try discriminate E.
    destruct (space_offset p o); cbn [rbind] in E; try discriminate E. injection E as <-. exact L.
  Qed.
  Lemma sets_fit id o i sets : sized o -> get_prop to_property_values id o = Ok (Some (i, sets)) -> forall s, In s sets -> set_fits s.
  Proof.
    intros L E s Is. apply got_fits in E as (v & Ev & F); [|exact L]. destruct v; try discriminate Ev. injection Ev as -> ->.
    inversion F as [| | | | | | | | | | | | |i' sets' K|]; subst. exact (K s Is).
  Qed.
  Lemma tags_sub o : sized o -> sub (tags_parse o) (tags_parse_on T o).
  Proof.
    intro L. unfold tags_parse_on, tags_parse. apply sub_bind; [apply sub_refl|]. intros v E. apply sub_opt. intros [i sets] ->.
    apply sub_map. intros s Is. pose proof (sets_fit _ _ _ _ L E s Is) as Ls. apply sub_bind; [now apply nested_sub|]. intros t Z. apply nested_sized in Z; [|exact Ls].
    unfold tag_parse_data_on, tag_parse_data. repeat (apply sub_bind; [first [exact (prop_object_sub _ _ Z)|apply sub_refl]|intros ? _]); apply sub_refl.
  Qed.
  Lemma runs_sub o : sized o -> sub (text_run_data_parse o) (text_run_data_parse_on T o).
  Proof.
    intro L. unfold text_run_data_parse_on, text_run_data_parse. apply sub_bind; [apply sub_refl|]. intros v E. apply sub_opt. intros [i sets] ->.
    apply sub_map. intros s Is. apply nested_sub; [exact L|]. exact (sets_fit _ _ _ _ L E s Is).
  Qed.
  Ltac leaf L := first [exact (prop_object_sub _ _ L)|exact (prop_objects_sub _ _ L)|exact (prop_spaces_sub _ _ L)|exact (refs_sub _ _ L)|exact (tags_sub _ L)|apply sub_refl].
  Ltac node L := repeat (apply sub_bind; [first [leaf L|unfold req, dflt; apply sub_bind; [leaf L|intros; apply sub_refl]]|intros ? _]); apply sub_refl.
  Lemma toc_parse_sub o : sized o -> sub (toc_parse o) (toc_parse_on T o).
  Proof. intro L. unfold toc_parse_on, toc_parse. node L. Qed.
  Lemma section_node_parse_sub o : sized o -> sub (section_node_parse o) (section_node_parse_on T o).
  Proof. intro L. unfold section_node_parse_on, section_node_parse. node L. Qed.
  Lemma page_series_node_parse_sub o : sized o -> sub (page_series_node_parse o) (page_series_node_parse_on T o).
  Proof. intro L. unfold page_series_node_parse_on, page_series_node_parse. node L. Qed.
  Lemma page_node_parse_sub o : sized o -> sub (page_node_parse o) (page_node_parse_on T o).
  Proof. intro L. unfold page_node_parse_on, page_node_parse. node L. Qed.
  Lemma page_manifest_parse_sub o : sized o -> sub (page_manifest_parse o) (page_manifest_parse_on T o).
  Proof. intro L. unfold page_manifest_parse_on, page_manifest_parse. node L. Qed.
  Lemma title_node_parse_sub o : sized o -> sub (title_node_parse o) (title_node_parse_on T o).
  Proof. intro L. unfold title_node_parse_on, title_node_parse. node L. Qed.
  Lemma embedded_file_node_parse_sub o : sized o -> sub (embedded_file_node_parse o) (embedded_file_node_parse_on T o).
  Proof. intro L. unfold embedded_file_node_parse_on, embedded_file_node_parse. node L. Qed.
  Lemma image_node_parse_sub o : sized o -> sub (image_node_parse o) (image_node_parse_on T o).
  Proof. intro L. unfold image_node_parse_on, image_node_parse. node L. Qed.
  Lemma ink_container_parse_sub o : sized o -> sub (ink_container_parse o) (ink_container_parse_on T o).
  Proof. intro L. unfold ink_container_parse_on, ink_container_parse. node L. Qed.
  Lemma ink_data_node_parse_sub o : sized o -> sub (ink_data_node_parse o) (ink_data_node_parse_on T o).
  Proof. intro L. unfold ink_data_node_parse_on, ink_data_node_parse. node L. Qed.
  Lemma ink_stroke_node_parse_sub o : sized o -> sub (ink_stroke_node_parse o) (ink_stroke_node_parse_on T o).
  Proof. intro L. unfold ink_stroke_node_parse_on, ink_stroke_node_parse. node L. Qed.
  Lemma rich_text_node_parse_sub o : sized o -> sub (rich_text_node_parse o) (rich_text_node_parse_on T o).
  Proof. intro L. unfold rich_text_node_parse_on, rich_text_node_parse. node L. Qed.
  Lemma outline_element_node_parse_sub o : sized o -> sub (outline_element_node_parse o) (outline_element_node_parse_on T o).
  Proof. intro L. unfold outline_element_node_parse_on, outline_element_node_parse. node L. Qed.
  Lemma outline_group_node_parse_sub o : sized o -> sub (outline_group_node_parse o) (outline_group_node_parse_on T o).
  Proof. intro L. unfold outline_group_node_parse_on, outline_group_node_parse. node L. Qed.
  Lemma outline_node_parse_sub o : sized o -> sub (outline_node_parse o) (outline_node_parse_on T o).
  Proof. intro L. unfold outline_node_parse_on, outline_node_parse. node L. Qed.
  Lemma table_cell_node_parse_sub o : sized o -> sub (table_cell_node_parse o) (table_cell_node_parse_on T o).
  Proof. intro L. unfold table_cell_node_parse_on, table_cell_node_parse. node L. Qed.
  Lemma table_node_parse_sub o : sized o -> sub (table_node_parse o) (table_node_parse_on T o).
  Proof. intro L. unfold table_node_parse_on, table_node_parse. node L. Qed.
  Lemma table_row_node_parse_sub o : sized o -> sub (table_row_node_parse o) (table_row_node_parse_on T o).
  Proof. intro L. unfold table_row_node_parse_on, table_row_node_parse. node L. Qed.

  Section Space.
  Context (sp : space) (Ls : forall x o, get_object sp x = Some o -> sized o).
  Lemma need_sub {B} id (f g : object -> res B) : (forall o, sized o -> sub (f o) (g o)) -> sub (rbind (need_object id sp) f) (rbind (need_object id sp) g).
  Proof. intros H. unfold need_object. destruct (get_object sp id) as [o|] eqn:E; cbn [ok_or rbind]; [|apply sub_refl]. apply H. exact (Ls id o E). Qed.
  Ltac nodes L := first [exact (embedded_file_node_parse_sub _ L)|exact (image_node_parse_sub _ L)|exact (ink_container_parse_sub _ L)|exact (ink_data_node_parse_sub _ L)|exact (ink_stroke_node_parse_sub _ L)
    |exact (rich_text_node_parse_sub _ L)|exact (outline_element_node_parse_sub _ L)|exact (outline_group_node_parse_sub _ L)|exact (outline_node_parse_sub _ L)|exact (table_cell_node_parse_sub _ L)
    |exact (table_node_parse_sub _ L)|exact (table_row_node_parse_sub _ L)|exact (page_node_parse_sub _ L)|exact (page_manifest_parse_sub _ L)|exact (title_node_parse_sub _ L)|exact (section_node_parse_sub _ L)
    |exact (page_series_node_parse_sub _ L)|exact (toc_parse_sub _ L)|exact (runs_sub _ L)].
  Ltac same := repeat match goal with
    | |- sub ?x ?x => apply sub_refl
    | |- sub (rbind (need_object _ sp) _) (rbind (need_object _ sp) _) => let o := fresh "o" in let Lo := fresh "Lo" in apply need_sub; intros o Lo
    | Lo : sized ?o |- sub (_ ?o) (_ ?o) => nodes Lo
    | |- sub (rbind _ _) (rbind _ _) => apply sub_bind; [|intros ? _]
    | |- sub (map_res _ _) (map_res _ _) => apply sub_map; intros ? _
    | |- sub (opt_map_res _ _) (opt_map_res _ _) => apply sub_opt; intros ? _
    | H : forall _, sub _ _ |- _ => apply H
    | |- sub (match ?x with _ => _ end) (match ?x with _ => _ end) => destruct x
    end.
  Lemma embedded_file_sub id : sub (parse_embedded_file id sp) (parse_embedded_file_on T id sp).
  Proof. unfold parse_embedded_file_on, parse_embedded_file. same. Qed.
  Lemma image_sub id : sub (parse_image id sp) (parse_image_on T id sp).
  Proof. unfold parse_image_on, parse_image. same. Qed.
  Lemma stroke_sub id sx sy : sub (parse_ink_stroke id sp sx sy) (parse_ink_stroke_on T id sp sx sy).
  Proof. unfold parse_ink_stroke_on, parse_ink_stroke. same. Qed.
  Lemma ink_data_sub id sx sy : sub (parse_ink_data id sp sx sy) (parse_ink_data_on T id sp sx sy).
  Proof. unfold parse_ink_data_on, parse_ink_data. same. apply stroke_sub. Qed.
  Lemma ink_sub id : sub (parse_ink id sp) (parse_ink_on T id sp).
  Proof. unfold parse_ink_on, parse_ink. same. apply ink_data_sub. Qed.
  Lemma embedded_sub refs objs : forall i k, sub (embedded_objects sp refs i k objs) (embedded_objects_on T sp refs i k objs).
  Proof.
    induction objs as [|[ty d] objs IH]; intros i k; [apply sub_refl|]. cbn [embedded_objects_on embedded_objects]. destruct ty; same; try apply IH.
    unfold parse_embedded_ink_on, parse_embedded_ink. same. apply ink_data_sub.
  Qed.
  Lemma rich_text_sub id : sub (parse_rich_text id sp) (parse_rich_text_on T id sp).
  Proof.
    unfold parse_rich_text_on, parse_rich_text. same.
    - unfold dflt. apply sub_bind; [now apply runs_sub|intros; apply sub_refl].
    - apply embedded_sub.
  Qed.
  Lemma cell_sub e e' id : (forall x, sub (e x) (e' x)) -> sub (parse_cell e id sp) (parse_cell_on T e' id sp).
  Proof. intro H. unfold parse_cell_on, parse_cell. same. Qed.
  Lemma row_sub e e' id : (forall x, sub (e x) (e' x)) -> sub (parse_row e id sp) (parse_row_on T e' id sp).
  Proof. intro H. unfold parse_row_on, parse_row. same. now apply cell_sub. Qed.
  Lemma table_sub e e' id : (forall x, sub (e x) (e' x)) -> sub (parse_table e id sp) (parse_table_on T e' id sp).
  Proof. intro H. unfold parse_table_on, parse_table. same. now apply row_sub. Qed.
  Lemma items_sub f : (forall id, sub (parse_outline_item f sp id) (parse_outline_item_on T f sp id)) /\
    (forall id, sub (parse_outline_element f sp id) (parse_outline_element_on T f sp id)) /\ (forall id, sub (parse_content f sp id) (parse_content_on T f sp id)).
  Proof.
    induction f as [|f (I1 & I2 & I3)]; [repeat split; intro; apply sub_refl|]. repeat split; intro id; cbn [parse_outline_item_on parse_outline_item parse_outline_element_on parse_outline_element parse_content_on parse_content].
    - same.
    - same.
    - same; try apply image_sub; try apply embedded_file_sub; try apply rich_text_sub; try apply ink_sub. now apply table_sub.
  Qed.
  Lemma outline_sub f id : sub (parse_outline f sp id) (parse_outline_on T f sp id).
  Proof. unfold parse_outline_on, parse_outline. same. apply items_sub. Qed.
  Lemma page_content_sub f id : sub (parse_page_content f sp id) (parse_page_content_on T f sp id).
  Proof. unfold parse_page_content_on, parse_page_content. same; first [apply image_sub|apply embedded_file_sub|apply outline_sub|apply ink_sub]. Qed.
  Lemma title_sub f id : sub (parse_title f sp id) (parse_title_on T f sp id).
  Proof. unfold parse_title_on, parse_title. same. apply outline_sub. Qed.
  Lemma page_sub f : sub (parse_page f sp) (parse_page_on T f sp).
  Proof.
    unfold parse_page_on, parse_page. same.
    - unfold page_manifest_on, page_manifest. same.
    - unfold page_node_on, page_node. same.
    - apply title_sub.
    - apply page_content_sub.
  Qed.
  Lemma toc_entry_sub f : forall id, sub (parse_toc_entry f sp id) (parse_toc_entry_on T f sp id).
  Proof. induction f as [|f IH]; intro id; [apply sub_refl|]. cbn [parse_toc_entry_on parse_toc_entry]. same. Qed.
  Lemma toc_sub f : sub (parse_toc f sp) (parse_toc_on T f sp).
  Proof. unfold parse_toc_on, parse_toc. same. apply toc_entry_sub. Qed.
  End Space.

  Lemma section_sub f st n : store_fits st -> sub (parse_section f st n) (parse_section_on T f st n).
  Proof.
    intros (F0 & F1). assert (A0 : forall x o, get_object (st_data_root st) x = Some o -> sized o) by (intros x o G; exact (proj1 (F0 x o G))).
    unfold parse_section_on, parse_section. apply sub_bind; [apply sub_refl|]. intros m _. apply sub_bind.
    - unfold section_content_on, section_content. apply sub_bind; [apply sub_refl|]. intros id _. apply (need_sub _ A0). intros o L. exact (section_node_parse_sub o L).
    - intros c _. cbv beta zeta. apply sub_bind; [|intros; apply sub_refl]. apply sub_map. intros id _. unfold parse_page_series_on, parse_page_series.
      apply (need_sub _ A0). intros o L. apply sub_bind; [exact (page_series_node_parse_sub o L)|]. intros d _. apply sub_map. intros cell _.
      destruct (object_space st cell) as [sp|] eqn:Q; cbn [ok_or rbind]; [|apply sub_refl]. exact (page_sub sp (fun x o G => proj1 (F1 cell sp Q x o G)) f).
  Qed.
  (** The result, a panic, or a different fate of a file that ends too early. *)
  Definition store_sub h f d : Prop := open_store_on T h f d = open_store h f d /\ forall st, open_store h f d = Ok st -> store_fits st.
  Lemma store_checked h f d : bytes_ok d -> N.of_nat (length d) < usize_count T -> open_store h f d <> Err UnexpectedEof -> store_sub h f d.
  Proof.
    intros B L N. split.
    - destruct (store_cases T True h f d L (or_introl I)) as [E|(_ & E)]; [exact E|now destruct N].
    - intros st O. exact (open_store_fits h f d st B O).
  Qed.
  Lemma buffer_sub h f d n : store_sub h f d -> sub (parse_section_buffer h f d n) (parse_section_buffer_on T h f d n).
  Proof.
    intros (E & F). unfold parse_section_buffer_on, parse_section_buffer. rewrite E. apply sub_bind; [apply sub_refl|]. intros st O.
    destruct (_ =? _); [|apply sub_refl]. apply section_sub. exact (F st O).
  Qed.
  Lemma file_sub h f fs p : (forall d, fs_read fs p = Some d -> store_sub h f d) -> sub (parse_section_file h f fs p) (parse_section_file_on T h f fs p).
  Proof.
    intros P. unfold parse_section_file_on, parse_section_file. destruct (fs_read fs p) as [d|]; cbn [ok_or rbind]; [|apply sub_refl]. destruct (P d eq_refl) as (E & F).
    rewrite E. apply sub_bind; [apply sub_refl|]. intros st O. destruct (_ =? _); [|apply sub_refl]. apply sub_bind; [apply sub_refl|]. intros k _. apply section_sub. exact (F st O).
  Qed.
  Lemma notebook_sub san h f fs : (forall p d, fs_read fs p = Some d -> store_sub h f d) ->
    forall k p, sub (parse_notebook san h k f fs p) (parse_notebook_on T san h k f fs p).
  Proof.
    intros P. induction k as [|k IH]; intro p; [apply sub_refl|]. cbn [parse_notebook_on parse_notebook]. destruct (fs_read fs p) as [d|] eqn:R; cbn [ok_or rbind]; [|apply sub_refl].
    destruct (P p d R) as (E & F). rewrite E. apply sub_bind; [apply sub_refl|]. intros st O. destruct (_ =? _); [|apply sub_refl]. apply sub_bind; [apply sub_refl|]. intros base _. apply sub_bind.
    - apply toc_sub. intros x o G. exact (proj1 (proj1 (F st O) x o G)).
    - intros [names color] _. apply sub_bind; [apply sub_refl|]. intros paths _. cbv zeta. apply sub_bind; [|intros; apply sub_refl]. apply sub_map. intros q _. destruct (fs_is_file fs q).
      + apply sub_bind; [|intros; apply sub_refl]. apply file_sub. intros d'. apply P.
      + do 3 (apply sub_bind; [apply sub_refl|intros ? _]). apply sub_bind; [apply IH|intros; apply sub_refl].
  Qed.
End Checked.

(** ** The statements *)
Lemma checked_buffer T h f d n : overflow_checks T = true -> 2 ^ 32 <= usize_count T -> bytes_ok d -> N.of_nat (length d) < usize_count T ->
  open_store h f d <> Err UnexpectedEof ->
  parse_section_buffer_on T h f d n = parse_section_buffer h f d n \/ parse_section_buffer_on T h f d n = Panic.
Proof. intros C W B L E. exact (buffer_sub T C W h f d n (store_checked T h f d B L E)). Qed.
Lemma checked_file T h f fs p : overflow_checks T = true -> 2 ^ 32 <= usize_count T ->
  (forall d, fs_read fs p = Some d -> bytes_ok d /\ N.of_nat (length d) < usize_count T /\ open_store h f d <> Err UnexpectedEof) ->
  parse_section_file_on T h f fs p = parse_section_file h f fs p \/ parse_section_file_on T h f fs p = Panic.
Proof. intros C W P. apply (file_sub T C W h f fs p). intros d R. destruct (P d R) as (B & L & E). exact (store_checked T h f d B L E). Qed.
Lemma checked_notebook T san h k f fs p : overflow_checks T = true -> 2 ^ 32 <= usize_count T ->
  (forall q d, fs_read fs q = Some d -> bytes_ok d /\ N.of_nat (length d) < usize_count T /\ open_store h f d <> Err UnexpectedEof) ->
  parse_notebook_on T san h k f fs p = parse_notebook san h k f fs p \/ parse_notebook_on T san h k f fs p = Panic.
Proof. intros C W P. apply (notebook_sub T C W san h f fs). intros q d R. destruct (P q d R) as (B & L & E). exact (store_checked T h f d B L E). Qed.
