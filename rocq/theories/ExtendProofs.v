(** Objects nothing refers to do not matter: reading is monotone in the store. *)
From Coq Require Import Lia.
From Verif Require Import Base Codec Package PropSet PropIds Store Shapes Props Nodes Doc Notebook SpecApi.

(** What [r] returns, [r'] returns too. *)
Definition keeps {A} (r r' : res A) : Prop := forall a, r = Ok a -> r' = Ok a.

Lemma keeps_refl : forall {A} (r : res A), keeps r r.
Proof. intros A r a H. exact H. Qed.
Lemma keeps_bind : forall {A B} (r r' : res A) (f f' : A -> res B),
  keeps r r' -> (forall a, keeps (f a) (f' a)) -> keeps (rbind r f) (rbind r' f').
Proof.
  intros A B r r' f f' R F b. destruct r as [a| | |]; cbn [rbind]; try discriminate.
  rewrite (R a eq_refl). cbn [rbind]. apply F.
Qed.
Lemma keeps_opt : forall {A B} (f f' : A -> res B) o,
  (forall a, keeps (f a) (f' a)) -> keeps (opt_map_res f o) (opt_map_res f' o).
Proof.
  intros A B f f' [a|] F; [|apply keeps_refl]. cbn [opt_map_res]. apply keeps_bind; [apply F|]. intro; apply keeps_refl.
Qed.
Lemma keeps_map : forall {A B} (f f' : A -> res B) l,
  (forall a, keeps (f a) (f' a)) -> keeps (map_res f l) (map_res f' l).
Proof.
  intros A B f f' l F. induction l as [|a l IH]; cbn [map_res]; [apply keeps_refl|].
  apply keeps_bind; [apply F|]. intro. apply keeps_bind; [exact IH|]. intro; apply keeps_refl.
Qed.
Lemma keeps_ok_or : forall {A} e (o o' : option A), (forall a, o = Some a -> o' = Some a) -> keeps (ok_or e o) (ok_or e o').
Proof. intros A e [a|] o' H b; cbn [ok_or]; [|discriminate]. rewrite (H a eq_refl). auto. Qed.

Create HintDb keeps discriminated.
Ltac keep_step :=
  cbv beta zeta;
  lazymatch goal with
  | |- keeps ?r ?r => apply keeps_refl
  | |- keeps (rbind _ _) (rbind _ _) => apply keeps_bind; [|intro]
  | |- keeps (opt_map_res _ _) _ => apply keeps_opt; intro
  | |- keeps (map_res _ _) _ => apply keeps_map; intro
  | |- keeps (match ?x with _ => _ end) (match ?x with _ => _ end) => destruct x
  | |- keeps (ok_or _ _) (ok_or _ _) => apply keeps_ok_or
  | |- _ => solve [eauto with keeps nocore]
  end.
Ltac keep := repeat keep_step.

Lemma need_object_keeps : forall sp sp' id, space_within sp sp' -> keeps (need_object id sp) (need_object id sp').
Proof. intros sp sp' id (O & _). unfold need_object. apply keeps_ok_or. apply O. Qed.
#[export] Hint Resolve need_object_keeps : keeps.
Ltac known f := intros; unfold f; keep.

Lemma tag_definition_keeps : forall sp sp' id, space_within sp sp' -> keeps (note_tag_definition id sp) (note_tag_definition id sp').
Proof. known note_tag_definition. Qed.
#[export] Hint Resolve tag_definition_keeps : keeps.
Lemma note_tags_keeps : forall sp sp' l, space_within sp sp' -> keeps (note_tags l sp) (note_tags l sp').
Proof. known note_tags. Qed.
Lemma list_keeps : forall sp sp' id, space_within sp sp' -> keeps (parse_list id sp) (parse_list id sp').
Proof. known parse_list. Qed.
Lemma iframe_keeps : forall sp sp' id, space_within sp sp' -> keeps (parse_iframe id sp) (parse_iframe id sp').
Proof. known parse_iframe. Qed.
#[export] Hint Resolve note_tags_keeps list_keeps iframe_keeps : keeps.
Lemma file_keeps : forall sp sp' id, space_within sp sp' -> keeps (parse_embedded_file id sp) (parse_embedded_file id sp').
Proof. known parse_embedded_file. Qed.
Lemma image_keeps : forall sp sp' id, space_within sp sp' -> keeps (parse_image id sp) (parse_image id sp').
Proof. known parse_image. Qed.
Lemma stroke_keeps : forall sp sp' id x y, space_within sp sp' -> keeps (parse_ink_stroke id sp x y) (parse_ink_stroke id sp' x y).
Proof. known parse_ink_stroke. Qed.
#[export] Hint Resolve file_keeps image_keeps stroke_keeps : keeps.
Lemma ink_data_keeps : forall sp sp' id x y, space_within sp sp' -> keeps (parse_ink_data id sp x y) (parse_ink_data id sp' x y).
Proof. known parse_ink_data. Qed.
#[export] Hint Resolve ink_data_keeps : keeps.
Lemma ink_keeps : forall sp sp' id, space_within sp sp' -> keeps (parse_ink id sp) (parse_ink id sp').
Proof. known parse_ink. Qed.
Lemma embedded_ink_keeps : forall sp sp' id d, space_within sp sp' -> keeps (parse_embedded_ink id sp d) (parse_embedded_ink id sp' d).
Proof. known parse_embedded_ink. Qed.
#[export] Hint Resolve ink_keeps embedded_ink_keeps : keeps.
Lemma embedded_keeps : forall sp sp' refs objs i k, space_within sp sp' ->
  keeps (embedded_objects sp refs i k objs) (embedded_objects sp' refs i k objs).
Proof.
  intros sp sp' refs objs i k W. revert i k. induction objs as [|[t d] objs IH]; intros i k; cbn [embedded_objects]; keep;
    apply IH.
Qed.
#[export] Hint Resolve embedded_keeps : keeps.
Lemma rich_text_keeps : forall sp sp' id, space_within sp sp' -> keeps (parse_rich_text id sp) (parse_rich_text id sp').
Proof. known parse_rich_text. Qed.
#[export] Hint Resolve rich_text_keeps : keeps.

Lemma outline_keeps : forall sp sp', space_within sp sp' -> forall f,
  (forall i, keeps (parse_outline_item f sp i) (parse_outline_item f sp' i)) /\
  (forall i, keeps (parse_outline_element f sp i) (parse_outline_element f sp' i)) /\
  (forall i, keeps (parse_content f sp i) (parse_content f sp' i)).
Proof.
  intros sp sp' W f. induction f as [|f (I1 & I2 & I3)].
  - repeat split; intro; apply keeps_refl.
  - repeat split; intro i; cbn [parse_outline_item parse_outline_element parse_content]; keep; auto.
    unfold parse_table, parse_row, parse_cell. keep.
Qed.
Lemma item_keeps : forall sp sp' f id, space_within sp sp' -> keeps (parse_outline_item f sp id) (parse_outline_item f sp' id).
Proof. intros. now apply outline_keeps. Qed.
#[export] Hint Resolve item_keeps : keeps.
Lemma parse_outline_keeps : forall sp sp' f id, space_within sp sp' -> keeps (parse_outline f sp id) (parse_outline f sp' id).
Proof. known parse_outline. Qed.
#[export] Hint Resolve parse_outline_keeps : keeps.
Lemma content_keeps : forall sp sp' f id, space_within sp sp' -> keeps (parse_page_content f sp id) (parse_page_content f sp' id).
Proof. known parse_page_content. Qed.
Lemma title_keeps : forall sp sp' f id, space_within sp sp' -> keeps (parse_title f sp id) (parse_title f sp' id).
Proof. known parse_title. Qed.
#[export] Hint Resolve content_keeps title_keeps : keeps.
Lemma page_keeps : forall sp sp' f, space_within sp sp' -> keeps (parse_page f sp) (parse_page f sp').
Proof.
  intros sp sp' f W. pose proof W as (_ & C & M). unfold parse_page, page_metadata, page_manifest, page_node. keep; assumption.
Qed.
Lemma section_keeps : forall st st' f n, store_within st st' -> keeps (Doc.parse_section f st n) (Doc.parse_section f st' n).
Proof.
  intros st st' f n (W & S). pose proof W as (_ & C & M).
  unfold Doc.parse_section, section_metadata, section_content. keep; try assumption.
  unfold parse_page_series. apply keeps_bind; [keep|]. intro o. apply keeps_bind; [keep|]. intro d. apply keeps_map.
  intros c p. specialize (S c). destruct (object_space st c) as [sp|]; cbn [ok_or rbind]; [|discriminate].
  destruct (S sp eq_refl) as (sp' & -> & Wp). cbn [ok_or rbind]. now apply page_keeps.
Qed.
Lemma toc_keeps : forall sp sp' f, space_within sp sp' -> keeps (parse_toc f sp) (parse_toc f sp').
Proof.
  intros sp sp' f W. pose proof W as (_ & C & M). unfold parse_toc. keep.
  revert a. induction f as [|f IH]; intro i; cbn [parse_toc_entry]; keep.
Qed.

(** The file name decides nothing but the display name. *)
Lemma section_name : forall f st n n',
  (let! s := Doc.parse_section f st n in Ok (se_page_series s, se_color s)) =
  (let! s := Doc.parse_section f st n' in Ok (se_page_series s, se_color s)).
Proof.
  intros f st n n'. unfold Doc.parse_section.
  destruct (section_metadata (st_data_root st)); cbn [rbind]; try reflexivity.
  destruct (section_content (st_data_root st)); cbn [rbind]; try reflexivity.
  destruct (map_res _ _); reflexivity.
Qed.
Lemma buffer_name : forall h f d n n',
  (let! s := parse_section_buffer h f d n in Ok (se_page_series s, se_color s)) =
  (let! s := parse_section_buffer h f d n' in Ok (se_page_series s, se_color s)).
Proof.
  intros h f d n n'. unfold parse_section_buffer. destruct (open_store h f d) as [st| | |]; cbn [rbind]; try reflexivity.
  destruct (_ =? _); [apply section_name|reflexivity].
Qed.
