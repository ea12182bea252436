(** Why a section or a table of contents cannot be read: per object. *)
From Coq Require Import Lia ZifyBool ZifyNat ZifyN.
From Verif Require Import Base BaseProofs Codec Package PropSet PropIds Store Shapes Props Nodes Doc Notebook
  SpecCodec SpecStore SpecValues SpecNodes SpecKinds KindsProofs NodesProofs NodesProofs2 SpecDoc DocProofs DocProofs2
  DocProofs3 SpecCause.

(** ** Objects whose errors are all of one kind *)
Local Notation KN := [MalformedOneNoteFileData].

Lemma prop_one : forall {A} (conv : pvalue -> option A) i o, only KN (get_prop conv i o).
Proof. intros. kinds. Qed.
Lemma string_one : forall i o, only KN (prop_string i o).
Proof.
  intros. unfold prop_string. apply only_bind; [apply prop_one|]. intros x. apply only_opt. intros d.
  destruct (utf16_to_string d); kinds.
Qed.
#[export] Hint Resolve prop_one string_one decode_kinds : kinds.
Lemma objects_one : forall i o, only KN (prop_objects i o).
Proof. intros. kinds. Qed.
Lemma object_one : forall i o, only KN (prop_object i o).
Proof. intros. kinds. Qed.
Lemma color_ref_one : forall i o, only KN (color_ref_parse i o).
Proof. intros. unfold color_ref_parse. apply only_bind; [kinds|]. intro. apply only_opt. intro v.
  generalize (le_byte 3 v). intro k. kinds. Qed.
Lemma layout_one : forall i o, only KN (layout_alignment_parse i o).
Proof.
  intros i o. unfold layout_alignment_parse. apply only_bind; [kinds|]. intros [v|]; [|kinds].
  generalize (N.land v 7) (N.land (N.shiftr v 3) 1) (N.land (N.shiftr v 16) 1) (N.land (N.shiftr v 19) 1).
  intros a b c d. kinds.
Qed.
Lemma shape_one : forall v, only KN (shape_parse v).
Proof. intro. kinds. Qed.
#[export] Hint Resolve objects_one object_one color_ref_one layout_one shape_one : kinds.
Lemma tags_one : forall o, only KN (tags_parse o).
Proof. intro. kinds. Qed.
Lemma text_run_data_one : forall o, only KN (text_run_data_parse o).
Proof. intro. kinds. Qed.
#[export] Hint Resolve tags_one text_run_data_one : kinds.

(** Numbers of fixed width run out exactly when there are too few bytes. *)
Lemma get_le_err k bs e : get_le (N.of_nat k) bs = Err e -> (length bs < k)%nat.
Proof.
  unfold get_le, read, pbind, remaining, pret. destruct (N.ltb_spec (N.of_nat (length bs)) (N.of_nat k)); [lia|discriminate].
Qed.
Lemma get_le_len k bs v r : get_le (N.of_nat k) bs = Ok (v, r) -> length bs = (k + length r)%nat.
Proof. intros H. apply get_le_ok in H as (d & H & -> & _). rewrite app_length. lia. Qed.
Lemma guid_err bs e : guid_parse bs = Err e -> (length bs < 16)%nat.
Proof.
  unfold guid_parse, pbind, pret. change get_u128 with (get_le (N.of_nat 16)). intros H.
  destruct (get_le (N.of_nat 16) bs) as [[v r]|x| |] eqn:E; try discriminate H. exact (get_le_err _ _ _ E).
Qed.
Lemma guid_len bs v r : guid_parse bs = Ok (v, r) -> length bs = (16 + length r)%nat.
Proof.
  unfold guid_parse, pbind, pret. change get_u128 with (get_le (N.of_nat 16)). intros H.
  destruct (get_le (N.of_nat 16) bs) as [[x y]| | |] eqn:E; try discriminate H.
  assert (y = r) as -> by congruence. exact (get_le_len _ _ _ _ E).
Qed.
Lemma entry_fine d e : length d = 32%nat -> ink_dimension_entry d <> Err e.
Proof.
  intros L. unfold ink_dimension_entry, run, pbind, pret. change get_u32 with (get_le (N.of_nat 4)).
  destruct (guid_parse d) as [[g r]|x| |] eqn:E1; try discriminate.
  2:{ apply guid_err in E1. lia. }
  apply guid_len in E1. destruct (get_le (N.of_nat 4) r) as [[a r1]|x| |] eqn:E2; try discriminate.
  2:{ apply get_le_err in E2. lia. }
  apply get_le_len in E2. destruct (get_le (N.of_nat 4) r1) as [[b r2]|x| |] eqn:E3; try discriminate.
  apply get_le_err in E3. lia.
Qed.
Lemma chunks_len {A} n f : forall (l : list A) c, In c (chunks_fuel f n l) -> length c = n.
Proof.
  induction f as [|f IH]; intros l c; cbn [chunks_fuel]; [intros []|].
  destruct (Nat.ltb_spec (length l) n) as [H|H]; [intros []|].
  intros [<-|I]; [rewrite firstn_length; lia|exact (IH _ _ I)].
Qed.
Lemma only_map_in : forall {A B} K (f : A -> res B) l,
  (forall a, In a l -> only K (f a)) -> only K (map_res f l).
Proof.
  intros A B K f l. induction l as [|a l IH]; intros F; cbn [map_res]; [apply only_ok|].
  apply only_bind; [apply F; now left|]. intro b. apply only_bind; [apply IH; intros; apply F; now right|].
  intro; apply only_ok.
Qed.
Lemma dims_one i o : only KN (ink_dimensions_parse i o).
Proof.
  unfold ink_dimensions_parse. apply only_bind; [kinds|]. intros [d|]; [|kinds].
  apply only_map_in. intros c I e E. destruct (entry_fine c e (chunks_len _ _ _ _ I) E).
Qed.
#[export] Hint Resolve dims_one : kinds.

Lemma section_metadata_one : forall o, only KN (section_metadata_parse o).
Proof. intro. kinds. Qed.
Lemma page_node_one : forall o, only KN (page_node_parse o).
Proof. intro. kinds. Qed.
Lemma page_manifest_one : forall o, only KN (page_manifest_parse o).
Proof. intro. kinds. Qed.
Lemma title_node_one : forall o, only KN (title_node_parse o).
Proof. intro. kinds. Qed.
Lemma embedded_file_container_one : forall o, only KN (embedded_file_container_parse o).
Proof. intro. kinds. Qed.
Lemma embedded_file_node_one : forall o, only KN (embedded_file_node_parse o).
Proof. intro. kinds. Qed.
Lemma picture_container_one : forall o, only KN (picture_container_parse o).
Proof. intro. kinds. Qed.
Lemma iframe_node_one : forall o, only KN (iframe_node_parse o).
Proof. intro. kinds. Qed.
Lemma image_node_one : forall o, only KN (image_node_parse o).
Proof. intro. kinds. Qed.
Lemma embedded_ink_one : forall o, only KN (embedded_ink_parse o).
Proof. intro. kinds. Qed.
Lemma ink_container_one : forall o, only KN (ink_container_parse o).
Proof. intro. kinds. Qed.
Lemma ink_data_node_one : forall o, only KN (ink_data_node_parse o).
Proof. intro. kinds. Qed.
Lemma ink_stroke_node_one : forall o, only KN (ink_stroke_node_parse o).
Proof. intro. kinds. Qed.
Lemma stroke_properties_one : forall o, only KN (stroke_properties_parse o).
Proof. intro. kinds. Qed.
Lemma tag_definition_one : forall o, only KN (tag_definition_parse o).
Proof. intro. kinds. Qed.
Lemma number_list_one : forall o, only KN (number_list_parse o).
Proof. intro. kinds. Qed.
Lemma style_one : forall o, only KN (style_parse o).
Proof. intro. kinds. Qed.
Lemma rich_text_node_one : forall o, only KN (rich_text_node_parse o).
Proof. intro. kinds. Qed.
Lemma outline_element_node_one : forall o, only KN (outline_element_node_parse o).
Proof. intro. kinds. Qed.
Lemma outline_group_node_one : forall o, only KN (outline_group_node_parse o).
Proof. intro. kinds. Qed.
Lemma table_node_one : forall o, only KN (table_node_parse o).
Proof. intro. kinds. Qed.
Lemma table_row_node_one : forall o, only KN (table_row_node_parse o).
Proof. intro. kinds. Qed.
Lemma toc_node_one : forall o, only KN (toc_parse o).
Proof. intro. kinds. Qed.

(** ** Errors and their causes *)
Definition blames {A} (T : ekind -> Prop) (r : res A) : Prop := forall e, r = Err e -> T e.

Lemma blames_bind {A B} T (r : res A) (f : A -> res B) :
  blames T r -> (forall a, r = Ok a -> blames T (f a)) -> blames T (rbind r f).
Proof.
  intros H F e. destruct r as [a|x| |]; cbn [rbind]; try discriminate.
  - exact (F a eq_refl e).
  - intros E. apply H. congruence.
Qed.
Lemma blames_ok {A} T (a : A) : blames T (Ok a).
Proof. intros e E. discriminate E. Qed.
Lemma blames_map {A B} T (f : A -> res B) l : (forall a, In a l -> blames T (f a)) -> blames T (map_res f l).
Proof.
  induction l as [|a l IH]; intros F; cbn [map_res]; [apply blames_ok|].
  apply blames_bind; [apply F; now left|]. intros b _. apply blames_bind; [apply IH; intros; apply F; now right|].
  intros. apply blames_ok.
Qed.
Lemma blames_opt {A B} T (f : A -> res B) x : (forall a, x = Some a -> blames T (f a)) -> blames T (opt_map_res f x).
Proof.
  destruct x as [a|]; intros F; [|apply blames_ok]. cbn [opt_map_res]. apply blames_bind; [now apply F|].
  intros. apply blames_ok.
Qed.
Lemma only_blames {A} (T : ekind -> Prop) (r : res A) : only KN r -> T MalformedOneNoteFileData -> blames T r.
Proof. intros O H e E. destruct (O e E) as [<-|[]]. exact H. Qed.
Lemma blames_mono {A} (T U : ekind -> Prop) (r : res A) : blames T r -> (forall e, T e -> U e) -> blames U r.
Proof. intros H I e E. exact (I e (H e E)). Qed.
Lemma node_err {A} (parse : object -> res A) (R : object -> A -> Prop) o e :
  (forall o d, parse o = Ok d <-> R o d) -> parse o = Err e -> ~ exists d, R o d.
Proof. intros H E (d & X). apply H in X. congruence. Qed.

Definition eof_or (C : Prop) (e : ekind) : Prop := e = MalformedOneNoteFileData \/ e = UnexpectedEof /\ C.
Lemma guid_blames o : blames (eof_or (short_guid o)) (prop_guid P_NotebookManagementEntityGuid o).
Proof.
  unfold prop_guid. apply blames_bind; [apply only_blames; [kinds|now left]|]. intros x E.
  apply blames_opt. intros d ->. intros e H. right.
  assert (K : only [UnexpectedEof] (run guid_parse d)) by kinds.
  split; [destruct (K e H) as [<-|[]]; reflexivity|]. apply vec_iff in E. unfold optional in E.
  change P_NotebookManagementEntityGuid with 0x1C001C30 in E. exists d.
  destruct (stored o 0x1C001C30) as [v|]; [|discriminate E]. destruct E as (a & -> & [= <-]).
  split; [reflexivity|]. unfold run in H. destruct (guid_parse d) as [[g r]|x| |] eqn:G; try discriminate H.
  exact (guid_err _ _ G).
Qed.
Lemma rep_floats_err fuel : forall n bs e, rep_fuel get_f32 fuel n bs = Err e -> (length bs < 4 * N.to_nat n)%nat.
Proof.
  induction fuel as [|f IH]; intros n bs e; cbn [rep_fuel]; destruct (N.eqb_spec n 0) as [->|H]; try discriminate.
  unfold pbind. change get_f32 with (get_le (N.of_nat 4)).
  destruct (get_le (N.of_nat 4) bs) as [(v & r)|x| |] eqn:E; try discriminate.
  - apply get_le_len in E. change (get_le (N.of_nat 4)) with get_f32.
    destruct (rep_fuel get_f32 f (n - 1) r) as [(vs & r2)|y| |] eqn:E2; try discriminate.
    intros _. apply IH in E2. lia.
  - intros _. apply get_le_err in E. lia.
Qed.
Lemma indents_blames o : blames (eof_or (short_indents o)) (indent_distance_parse o).
Proof.
  unfold indent_distance_parse. apply blames_bind; [apply only_blames; [kinds|now left]|]. intros x E.
  apply blames_opt. intros d ->. intros e H. right.
  assert (K : only [UnexpectedEof] (run (count <- get_u8 ;; _ <- advance 3 ;; rep count get_f32) d)) by kinds.
  split; [destruct (K e H) as [<-|[]]; reflexivity|]. clear K. apply vec_iff in E. unfold optional in E.
  change P_RgOutlineIndentDistance with 0x1C001C12 in E. exists d.
  destruct (stored o 0x1C001C12) as [v|]; [|discriminate E]. destruct E as (a & -> & [= <-]).
  split; [reflexivity|]. destruct d as [|n d]; [left; cbn; lia|].
  unfold run, pbind in H. rewrite get_u8_cons in H.
  unfold advance, remaining in H. destruct (N.ltb_spec (N.of_nat (length d)) 3) as [L|L].
  - left. cbn [length]. lia.
  - right. exists n, d. split; [reflexivity|]. change (N.to_nat 3) with 3%nat in H.
    destruct (rep n get_f32 (skipn 3 d)) as [[xs r]|y| |] eqn:R; try discriminate H.
    apply rep_floats_err in R. rewrite skipn_length in R. cbn [length]. lia.
Qed.

Ltac node_blames L :=
  repeat (apply blames_bind; [first
    [ apply only_blames; [solve [kinds]|now left]
    | unfold req; apply blames_bind; [apply L|intros; apply only_blames; [solve [kinds]|now left]]]
    |intros]); apply blames_ok.
Lemma section_node_blames o : blames (eof_or (short_guid o)) (section_node_parse o).
Proof. unfold section_node_parse. node_blames guid_blames. Qed.
Lemma series_node_blames o : blames (eof_or (short_guid o)) (page_series_node_parse o).
Proof. unfold page_series_node_parse. node_blames guid_blames. Qed.
Lemma page_meta_blames o : blames (eof_or (short_guid o)) (page_metadata_parse o).
Proof. unfold page_metadata_parse. node_blames guid_blames. Qed.
Lemma outline_node_blames o : blames (eof_or (short_indents o)) (outline_node_parse o).
Proof. unfold outline_node_parse. node_blames indents_blames. Qed.
Lemma cell_node_blames o : blames (eof_or (short_indents o)) (table_cell_node_parse o).
Proof. unfold table_cell_node_parse. node_blames indents_blames. Qed.

Lemma char_blames o p : In p [0x10003453; 0x10003454; 0x10003455] ->
  blames (fun e => e = MalformedOneNoteFileData \/ e = Utf16Error /\ half_character o) (prop_char p o).
Proof.
  intros I. unfold prop_char. apply blames_bind; [apply only_blames; [kinds|now left]|]. intros c E.
  apply blames_bind; [|intros; apply blames_ok]. apply blames_opt. intros n ->. intros e H. right.
  apply u16_iff in E. unfold optional in E. destruct (stored o p) as [v|] eqn:S; [|discriminate E].
  destruct E as (a & -> & [= <-]). unfold utf16_char in H. cbn in H.
  unfold is_high_surrogate, is_low_surrogate in H.
  destruct ((0xD800 <=? n) && (n <=? 0xDBFF)) eqn:E1; [|destruct ((0xDC00 <=? n) && (n <=? 0xDFFF)) eqn:E2; [|discriminate H]];
    injection H as <-; (split; [reflexivity|]); exists p, n; (split; [exact I|]); (split; [exact S|lia]).
Qed.
Lemma math_blames o :
  blames (fun e => e = MalformedOneNoteFileData \/ e = Utf16Error /\ half_character o) (math_data_parse o).
Proof.
  unfold math_data_parse.
  repeat (apply blames_bind; [first
    [ apply char_blames; cbn; tauto
    | apply only_blames; [solve [kinds]|now left]]
    |intros]); apply blames_ok.
Qed.
