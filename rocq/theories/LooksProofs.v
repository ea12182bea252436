(** The look-ups: the results are those of [Doc.v], and depend on nothing else than the
    answers. *)
From Coq Require Import Lia Floats.SpecFloat.
From Verif Require Import Base Codec Package PropSet PropIds Store Shapes Props Nodes Doc Notebook Looks SpecLooks.

(** ** Forgetting the look-ups *)
Lemma tbind_eq {T A B} (p : traced T A) (f : A -> traced T B) : tbind p f =
  match snd p with
  | Ok a => (fst p ++ fst (f a), snd (f a))
  | Err e => (fst p, Err e)
  | Panic => (fst p, Panic)
  | OutOfFuel => (fst p, OutOfFuel)
  end.
Proof. destruct p as (l, [a|e| |]); try reflexivity. cbn. now destruct (f a). Qed.
Lemma snd_bind {T A B} (p : traced T A) (f : A -> traced T B) : snd (tbind p f) = rbind (snd p) (fun a => snd (f a)).
Proof. rewrite tbind_eq. destruct (snd p); reflexivity. Qed.
Lemma rbind_ext {A B} (r r' : res A) (f g : A -> res B) : r = r' -> (forall a, f a = g a) -> rbind r f = rbind r' g.
Proof. intros <- H. destruct r; cbn; [apply H|reflexivity..]. Qed.
Lemma snd_map {T A B} (f : A -> traced T B) (g : A -> res B) l : (forall a, snd (f a) = g a) -> snd (map_t f l) = map_res g l.
Proof.
  intro H. induction l as [|a l IH]; [reflexivity|]. cbn [map_t map_res]. rewrite snd_bind. apply rbind_ext; [apply H|].
  intro b. rewrite snd_bind. apply rbind_ext; [exact IH|]. reflexivity.
Qed.
Lemma snd_opt {T A B} (f : A -> traced T B) (g : A -> res B) o : (forall a, snd (f a) = g a) -> snd (opt_map_t f o) = opt_map_res g o.
Proof. intro H. destruct o as [a|]; [|reflexivity]. cbn [opt_map_t opt_map_res]. rewrite snd_bind. apply rbind_ext; [apply H|]. reflexivity. Qed.

Create HintDb same.
Ltac same := repeat match goal with
  | |- snd (tlift _) = _ => reflexivity
  | |- snd (tret _) = _ => reflexivity
  | |- snd (need_object_t _ _) = _ => reflexivity
  | |- snd (tbind _ _) = rbind _ _ => rewrite snd_bind; apply rbind_ext; [|intro]
  | |- snd (map_t _ _) = map_res _ _ => apply snd_map; intro
  | |- snd (opt_map_t _ _) = opt_map_res _ _ => apply snd_opt; intro
  | |- _ => solve [eauto with same]
  | |- snd (match ?x with _ => _ end) = match ?x with _ => _ end => destruct x
  end.

Lemma same_tag_definition id sp : snd (note_tag_definition_t id sp) = note_tag_definition id sp.
Proof. unfold note_tag_definition_t, note_tag_definition. same. Qed.
#[export] Hint Resolve same_tag_definition : same.
Lemma same_tags l sp : snd (note_tags_t l sp) = note_tags l sp.
Proof. unfold note_tags_t, note_tags. same. Qed.
Lemma same_list id sp : snd (parse_list_t id sp) = parse_list id sp.
Proof. unfold parse_list_t, parse_list. same. Qed.
Lemma same_iframe id sp : snd (parse_iframe_t id sp) = parse_iframe id sp.
Proof. unfold parse_iframe_t, parse_iframe. same. Qed.
#[export] Hint Resolve same_tags same_list same_iframe : same.
Lemma same_file id sp : snd (parse_embedded_file_t id sp) = parse_embedded_file id sp.
Proof. unfold parse_embedded_file_t, parse_embedded_file. same. Qed.
Lemma same_image id sp : snd (parse_image_t id sp) = parse_image id sp.
Proof. unfold parse_image_t, parse_image. same. Qed.
Lemma same_stroke id sp sx sy : snd (parse_ink_stroke_t id sp sx sy) = parse_ink_stroke id sp sx sy.
Proof. unfold parse_ink_stroke_t, parse_ink_stroke. same. Qed.
#[export] Hint Resolve same_file same_image same_stroke : same.
Lemma same_ink_data id sp sx sy : snd (parse_ink_data_t id sp sx sy) = parse_ink_data id sp sx sy.
Proof. unfold parse_ink_data_t, parse_ink_data. same. Qed.
#[export] Hint Resolve same_ink_data : same.
Lemma same_ink id sp : snd (parse_ink_t id sp) = parse_ink id sp.
Proof. unfold parse_ink_t, parse_ink. same. Qed.
Lemma same_embedded_ink id sp d : snd (parse_embedded_ink_t id sp d) = parse_embedded_ink id sp d.
Proof. unfold parse_embedded_ink_t, parse_embedded_ink. same. Qed.
#[export] Hint Resolve same_ink same_embedded_ink : same.
Lemma same_embedded sp refs objs : forall i k, snd (embedded_objects_t sp refs i k objs) = embedded_objects sp refs i k objs.
Proof.
  induction objs as [|(ty, d) objs IH]; intros i k; [reflexivity|]. cbn [embedded_objects_t embedded_objects]. destruct ty as [t|].
  - rewrite snd_bind. apply rbind_ext; [reflexivity|]. intro x. rewrite snd_bind. apply rbind_ext; [apply IH|]. reflexivity.
  - rewrite snd_bind. apply rbind_ext.
    + destruct refs; [reflexivity|]. destruct (nth_error _ _); [|reflexivity]. same.
    + intro x. rewrite snd_bind. apply rbind_ext; [apply IH|]. reflexivity.
Qed.
#[export] Hint Resolve same_embedded : same.
Lemma same_rich_text id sp : snd (parse_rich_text_t id sp) = parse_rich_text id sp.
Proof. unfold parse_rich_text_t, parse_rich_text. same. Qed.
#[export] Hint Resolve same_rich_text : same.
Lemma same_cell e g id sp : (forall i, snd (e i) = g i) -> snd (parse_cell_t e id sp) = parse_cell g id sp.
Proof. intro H. unfold parse_cell_t, parse_cell. same. Qed.
Lemma same_row e g id sp : (forall i, snd (e i) = g i) -> snd (parse_row_t e id sp) = parse_row g id sp.
Proof. intro H. unfold parse_row_t, parse_row. pose proof (same_cell e g) as C. same. Qed.
Lemma same_table e g id sp : (forall i, snd (e i) = g i) -> snd (parse_table_t e id sp) = parse_table g id sp.
Proof. intro H. unfold parse_table_t, parse_table. pose proof (same_row e g) as C. same. Qed.
#[export] Hint Resolve same_table : same.

Lemma same_outline_parts sp f :
  (forall id, snd (parse_outline_item_t f sp id) = parse_outline_item f sp id) /\
  (forall id, snd (parse_outline_element_t f sp id) = parse_outline_element f sp id) /\
  (forall id, snd (parse_content_t f sp id) = parse_content f sp id).
Proof.
  induction f as [|f (IHi & IHe & IHc)]; [repeat split|].
  refine (conj _ (conj _ _)); intro id;
    cbn [parse_outline_item_t parse_outline_element_t parse_content_t parse_outline_item parse_outline_element parse_content];
    same.
Qed.
Lemma same_item sp f id : snd (parse_outline_item_t f sp id) = parse_outline_item f sp id.
Proof. apply same_outline_parts. Qed.
#[export] Hint Resolve same_item : same.
Lemma same_outline f sp id : snd (parse_outline_t f sp id) = parse_outline f sp id.
Proof. unfold parse_outline_t, parse_outline. same. Qed.
#[export] Hint Resolve same_outline : same.
Lemma same_page_content f sp id : snd (parse_page_content_t f sp id) = parse_page_content f sp id.
Proof. unfold parse_page_content_t, parse_page_content. same. Qed.
Lemma same_title f sp id : snd (parse_title_t f sp id) = parse_title f sp id.
Proof. unfold parse_title_t, parse_title. same. Qed.
#[export] Hint Resolve same_page_content same_title : same.
Lemma same_page f sp : snd (parse_page_t f sp) = parse_page f sp.
Proof.
  unfold parse_page_t, parse_page, page_metadata_t, page_metadata, page_manifest_t, page_manifest, page_node_t, page_node. same.
Qed.
Lemma same_series f st id : snd (parse_page_series_t f st id) = parse_page_series f st id.
Proof.
  unfold parse_page_series_t, parse_page_series. rewrite snd_bind. apply rbind_ext; [reflexivity|]. intro o. rewrite snd_bind. apply rbind_ext; [reflexivity|].
  intro d. apply snd_map. intro c. rewrite snd_bind. apply rbind_ext; [reflexivity|]. intro sp. apply same_page.
Qed.
Lemma same_section f st file : snd (parse_section_t f st file) = parse_section f st file.
Proof.
  unfold parse_section_t, parse_section. rewrite snd_bind. apply rbind_ext.
  { cbn [at_ snd]. unfold section_metadata_t, section_metadata. same. }
  intro m. rewrite snd_bind. apply rbind_ext.
  { cbn [at_ snd]. unfold section_content_t, section_content. same. }
  intro c. rewrite snd_bind. apply rbind_ext; [|reflexivity]. apply snd_map. intro id. apply same_series.
Qed.
Lemma same_buffer h f d file : snd (parse_section_buffer_t h f d file) = parse_section_buffer h f d file.
Proof.
  unfold parse_section_buffer_t, parse_section_buffer. rewrite snd_bind. apply rbind_ext; [reflexivity|]. intro st.
  destruct (st_schema st =? section_schema); [apply same_section|reflexivity].
Qed.

(** ** Nothing else is read *)
Definition agree (sp sp' : space) (l : list exguid) : Prop := forall x, In x l -> get_object sp' x = get_object sp x.
Definition follows {A} (sp sp' : space) (p p' : traced exguid A) : Prop := agree sp sp' (fst p) -> p' = p.

Lemma follows_refl {A} sp sp' (p : traced exguid A) : follows sp sp' p p.
Proof. intro. reflexivity. Qed.
Lemma follows_need sp sp' id : follows sp sp' (need_object_t id sp) (need_object_t id sp').
Proof. intro H. unfold need_object_t, need_object. rewrite (H id); [reflexivity|now left]. Qed.
Lemma follows_bind {A B} sp sp' (p p' : traced exguid A) (f f' : A -> traced exguid B) :
  follows sp sp' p p' -> (forall a, follows sp sp' (f a) (f' a)) -> follows sp sp' (tbind p f) (tbind p' f').
Proof.
  unfold follows. intros P F. rewrite !tbind_eq. intro H. destruct (snd p) as [a|e| |] eqn:E; cbn [fst] in H.
  2-4: now rewrite (P H), E.
  rewrite P by (intros x X; apply H, in_app_iff; now left). rewrite E. rewrite F; [reflexivity|].
  intros x X. apply H, in_app_iff. now right.
Qed.
Lemma follows_map {A B} sp sp' (f f' : A -> traced exguid B) l :
  (forall a, follows sp sp' (f a) (f' a)) -> follows sp sp' (map_t f l) (map_t f' l).
Proof.
  intro F. induction l as [|a l IH]; [apply follows_refl|]. cbn [map_t]. apply follows_bind; [apply F|]. intro b.
  apply follows_bind; [exact IH|]. intro. apply follows_refl.
Qed.
Lemma follows_opt {A B} sp sp' (f f' : A -> traced exguid B) o :
  (forall a, follows sp sp' (f a) (f' a)) -> follows sp sp' (opt_map_t f o) (opt_map_t f' o).
Proof. intro F. destruct o as [a|]; [|apply follows_refl]. apply follows_bind; [apply F|]. intro. apply follows_refl. Qed.

Create HintDb follow.
Ltac follow := repeat match goal with
  | |- follows _ _ ?p ?p => apply follows_refl
  | |- follows _ _ (need_object_t _ _) (need_object_t _ _) => apply follows_need
  | |- follows _ _ (tbind _ _) (tbind _ _) => apply follows_bind; [|intro]
  | |- follows _ _ (map_t _ _) (map_t _ _) => apply follows_map; intro
  | |- follows _ _ (opt_map_t _ _) (opt_map_t _ _) => apply follows_opt; intro
  | |- _ => solve [eauto with follow]
  | |- follows _ _ (match ?x with _ => _ end) (match ?x with _ => _ end) => destruct x
  end.

Section Follow.
Variables sp sp' : space.
Lemma follow_tag_definition id : follows sp sp' (note_tag_definition_t id sp) (note_tag_definition_t id sp').
Proof. unfold note_tag_definition_t. follow. Qed.
Hint Resolve follow_tag_definition : follow.
Lemma follow_tags l : follows sp sp' (note_tags_t l sp) (note_tags_t l sp').
Proof. unfold note_tags_t. follow. Qed.
Lemma follow_list id : follows sp sp' (parse_list_t id sp) (parse_list_t id sp').
Proof. unfold parse_list_t. follow. Qed.
Lemma follow_iframe id : follows sp sp' (parse_iframe_t id sp) (parse_iframe_t id sp').
Proof. unfold parse_iframe_t. follow. Qed.
Hint Resolve follow_tags follow_list follow_iframe : follow.
Lemma follow_file id : follows sp sp' (parse_embedded_file_t id sp) (parse_embedded_file_t id sp').
Proof. unfold parse_embedded_file_t. follow. Qed.
Lemma follow_image id : follows sp sp' (parse_image_t id sp) (parse_image_t id sp').
Proof. unfold parse_image_t. follow. Qed.
Lemma follow_stroke id sx sy : follows sp sp' (parse_ink_stroke_t id sp sx sy) (parse_ink_stroke_t id sp' sx sy).
Proof. unfold parse_ink_stroke_t. follow. Qed.
Hint Resolve follow_file follow_image follow_stroke : follow.
Lemma follow_ink_data id sx sy : follows sp sp' (parse_ink_data_t id sp sx sy) (parse_ink_data_t id sp' sx sy).
Proof. unfold parse_ink_data_t. follow. Qed.
Hint Resolve follow_ink_data : follow.
Lemma follow_ink id : follows sp sp' (parse_ink_t id sp) (parse_ink_t id sp').
Proof. unfold parse_ink_t. follow. Qed.
Lemma follow_embedded_ink id d : follows sp sp' (parse_embedded_ink_t id sp d) (parse_embedded_ink_t id sp' d).
Proof. unfold parse_embedded_ink_t. follow. Qed.
Hint Resolve follow_ink follow_embedded_ink : follow.
Lemma follow_embedded refs objs : forall i k, follows sp sp' (embedded_objects_t sp refs i k objs) (embedded_objects_t sp' refs i k objs).
Proof.
  induction objs as [|(ty, d) objs IH]; intros i k; cbn [embedded_objects_t]; [apply follows_refl|]. destruct ty as [t|]; follow.
Qed.
Hint Resolve follow_embedded : follow.
Lemma follow_rich_text id : follows sp sp' (parse_rich_text_t id sp) (parse_rich_text_t id sp').
Proof. unfold parse_rich_text_t. follow. Qed.
Hint Resolve follow_rich_text : follow.
Lemma follow_cell e e' id : (forall i, follows sp sp' (e i) (e' i)) -> follows sp sp' (parse_cell_t e id sp) (parse_cell_t e' id sp').
Proof. intro H. unfold parse_cell_t. follow. Qed.
Hint Resolve follow_cell : follow.
Lemma follow_row e e' id : (forall i, follows sp sp' (e i) (e' i)) -> follows sp sp' (parse_row_t e id sp) (parse_row_t e' id sp').
Proof. intro H. unfold parse_row_t. follow. Qed.
Hint Resolve follow_row : follow.
Lemma follow_table e e' id : (forall i, follows sp sp' (e i) (e' i)) -> follows sp sp' (parse_table_t e id sp) (parse_table_t e' id sp').
Proof. intro H. unfold parse_table_t. follow. Qed.
Hint Resolve follow_table : follow.
Lemma follow_parts f :
  (forall id, follows sp sp' (parse_outline_item_t f sp id) (parse_outline_item_t f sp' id)) /\
  (forall id, follows sp sp' (parse_outline_element_t f sp id) (parse_outline_element_t f sp' id)) /\
  (forall id, follows sp sp' (parse_content_t f sp id) (parse_content_t f sp' id)).
Proof.
  induction f as [|f (IHi & IHe & IHc)]; [repeat split; intros; apply follows_refl|].
  refine (conj _ (conj _ _)); intro id; cbn [parse_outline_item_t parse_outline_element_t parse_content_t]; follow.
Qed.
Lemma follow_item f id : follows sp sp' (parse_outline_item_t f sp id) (parse_outline_item_t f sp' id).
Proof. apply follow_parts. Qed.
Hint Resolve follow_item : follow.
Lemma follow_outline f id : follows sp sp' (parse_outline_t f sp id) (parse_outline_t f sp' id).
Proof. unfold parse_outline_t. follow. Qed.
Hint Resolve follow_outline : follow.
Lemma follow_page_content f id : follows sp sp' (parse_page_content_t f sp id) (parse_page_content_t f sp' id).
Proof. unfold parse_page_content_t. follow. Qed.
Lemma follow_title f id : follows sp sp' (parse_title_t f sp id) (parse_title_t f sp' id).
Proof. unfold parse_title_t. follow. Qed.
Hint Resolve follow_page_content follow_title : follow.
Lemma follow_page f : roots sp' = roots sp -> follows sp sp' (parse_page_t f sp) (parse_page_t f sp').
Proof.
  unfold roots. intro R. injection R as C M. unfold parse_page_t, page_metadata_t, page_manifest_t, page_node_t. rewrite C, M. follow.
Qed.
Lemma follow_metadata : roots sp' = roots sp -> follows sp sp' (section_metadata_t sp) (section_metadata_t sp').
Proof. unfold roots. intro R. injection R as C M. unfold section_metadata_t. rewrite M. follow. Qed.
Lemma follow_content : roots sp' = roots sp -> follows sp sp' (section_content_t sp) (section_content_t sp').
Proof. unfold roots. intro R. injection R as C M. unfold section_content_t. rewrite C. follow. Qed.
End Follow.

(** The same for the store. *)
Definition sfollows {A} (st st' : store) (p p' : traced look A) : Prop := Forall (same_answer st st') (fst p) -> p' = p.
Lemma sfollows_bind {A B} st st' (p p' : traced look A) (f f' : A -> traced look B) :
  sfollows st st' p p' -> (Forall (same_answer st st') (fst p) -> forall a, snd p = Ok a -> sfollows st st' (f a) (f' a)) ->
  sfollows st st' (tbind p f) (tbind p' f').
Proof.
  unfold sfollows. intros P F. rewrite !tbind_eq. intro H. destruct (snd p) as [a|e| |] eqn:E; cbn [fst] in H.
  2-4: now rewrite (P H), E.
  apply Forall_app in H as (H1 & H2). rewrite (P H1), E. now rewrite (F H1 a eq_refl H2).
Qed.
Lemma sfollows_refl {A} st st' (p : traced look A) : sfollows st st' p p.
Proof. intro. reflexivity. Qed.
Lemma sfollows_map {A B} st st' (f f' : A -> traced look B) l :
  (forall a, sfollows st st' (f a) (f' a)) -> sfollows st st' (map_t f l) (map_t f' l).
Proof.
  intro F. induction l as [|a l IH]; [apply sfollows_refl|]. cbn [map_t]. apply sfollows_bind; [apply F|]. intros _ b _.
  apply sfollows_bind; [exact IH|]. intros. apply sfollows_refl.
Qed.
Lemma sfollows_root {A} st st' (p p' : traced exguid A) : follows (st_data_root st) (st_data_root st') p p' -> sfollows st st' (at_ InRoot p) (at_ InRoot p').
Proof.
  intros F H. unfold at_ in *. cbn [fst] in H. rewrite F; [reflexivity|]. intros x X. rewrite Forall_forall in H.
  apply (H (InRoot x)). now apply in_map.
Qed.
Lemma sfollows_space {A} st st' cell sp sp' (p p' : traced exguid A) : object_space st cell = Some sp -> object_space st' cell = Some sp' ->
  follows sp sp' p p' -> sfollows st st' (at_ (InSpace cell) p) (at_ (InSpace cell) p').
Proof.
  intros E E' F H. unfold at_ in *. cbn [fst] in H. rewrite F; [reflexivity|]. intros x X. rewrite Forall_forall in H.
  specialize (H (InSpace cell x) (in_map _ _ _ X)). cbn in H. unfold object_at in H. now rewrite E, E' in H.
Qed.
Lemma sfollow_series st st' f id : sfollows st st' (parse_page_series_t f st id) (parse_page_series_t f st' id).
Proof.
  unfold parse_page_series_t. apply sfollows_bind; [apply sfollows_root, follows_need|]. intros _ o _.
  apply sfollows_bind; [apply sfollows_refl|]. intros _ d _. apply sfollows_map. intro cell.
  unfold sfollows. intro H. assert (T : same_answer st st' (TheSpace cell)).
  { rewrite tbind_eq in H. cbn [snd fst] in H. destruct (ok_or _ _); cbn [fst app] in H; now inversion H. }
  cbn in T. revert H. destruct (object_space st cell) as [sp|] eqn:E; destruct (object_space st' cell) as [sp'|] eqn:E'; try discriminate T; [|reflexivity].
  cbn in T. cbn [ok_or]. rewrite !tbind_eq. cbn [snd fst]. intro H. cbn [app] in H. apply Forall_inv_tail in H.
  assert (R : roots sp' = roots sp) by congruence.
  rewrite (sfollows_space st st' cell sp sp' (parse_page_t f sp) (parse_page_t f sp') E E' (follow_page sp sp' f R) H). reflexivity.
Qed.
Lemma sfollow_section st st' f file : roots (st_data_root st') = roots (st_data_root st) ->
  sfollows st st' (parse_section_t f st file) (parse_section_t f st' file).
Proof.
  intro R. unfold parse_section_t. apply sfollows_bind; [apply sfollows_root, follow_metadata, R|]. intros _ m _.
  apply sfollows_bind; [apply sfollows_root, follow_content, R|]. intros _ c _.
  apply sfollows_bind; [|intros; apply sfollows_refl]. apply sfollows_map. intro. apply sfollow_series.
Qed.
