(** Proofs for C91: documents and notebooks. *)
From Coq Require Import Lia ZifyBool ZifyNat ZifyN.
From Verif Require Import Base BaseProofs Codec CodecProofs SpecCodec Package PackageProofs PropSet PropIds Store Shapes Props Nodes Doc Notebook RefsProofs ForwardProofs SameProofs NotebookProofs3
  SpecPackage SpecWeight WeightProofs CrowdProofs DeepProofs3 RangeProofs Target TargetDoc SpecTarget TargetProofs TargetProofs2.

Section Space.
  Context (T : target) (W1 : 1 < usize_count T) (sp : space) (L : forall x o, get_object sp x = Some o -> light T o).
  Lemma need_ext {B} id (f g : object -> res B) : (forall o, light T o -> f o = g o) -> rbind (need_object id sp) f = rbind (need_object id sp) g.
  Proof. intros H. unfold need_object. destruct (get_object sp id) as [o|] eqn:E; [|reflexivity]. apply H. now apply (L id). Qed.
  Lemma bind_both {A B} (r r' : res A) (f g : A -> res B) : r = r' -> (forall a, f a = g a) -> rbind r f = rbind r' g.
  Proof. intros <- H. now apply rbind_ext. Qed.
  Ltac nodes Lo := rewrite ?embedded_file_node_parse_same, ?image_node_parse_same, ?ink_container_parse_same, ?ink_data_node_parse_same, ?ink_stroke_node_parse_same,
    ?rich_text_node_parse_same, ?outline_element_node_parse_same, ?outline_group_node_parse_same, ?outline_node_parse_same, ?table_cell_node_parse_same,
    ?table_node_parse_same, ?table_row_node_parse_same, ?page_node_parse_same, ?page_manifest_parse_same, ?title_node_parse_same, ?section_node_parse_same,
    ?page_series_node_parse_same, ?toc_parse_same, ?runs_same by first [exact W1|exact Lo].
  Ltac same := repeat match goal with
    | |- ?x = ?x => reflexivity
    | |- rbind (need_object _ sp) _ = rbind (need_object _ sp) _ => let o := fresh "o" in let Lo := fresh "Lo" in apply need_ext; intros o Lo; nodes Lo
    | |- rbind _ _ = rbind _ _ => apply bind_both; [|intro]
    | |- map_res _ _ = map_res _ _ => apply map_res_ext; intro
    | H : forall _, _ = _ |- _ => rewrite H
    | |- match ?x with _ => _ end = match ?x with _ => _ end => destruct x
    end.
  Lemma embedded_file_same id : parse_embedded_file_on T id sp = parse_embedded_file id sp.
  Proof. unfold parse_embedded_file_on, parse_embedded_file. same. Qed.
  Lemma image_same id : parse_image_on T id sp = parse_image id sp.
  Proof. unfold parse_image_on, parse_image. same. Qed.
  Lemma stroke_same id sx sy : parse_ink_stroke_on T id sp sx sy = parse_ink_stroke id sp sx sy.
  Proof. unfold parse_ink_stroke_on, parse_ink_stroke. same. Qed.
  Lemma ink_data_same id sx sy : parse_ink_data_on T id sp sx sy = parse_ink_data id sp sx sy.
  Proof. unfold parse_ink_data_on, parse_ink_data. same. apply stroke_same. Qed.
  Lemma ink_same id : parse_ink_on T id sp = parse_ink id sp.
  Proof. unfold parse_ink_on, parse_ink. same. apply ink_data_same. Qed.
  Lemma embedded_same refs objs : forall i k, embedded_objects_on T sp refs i k objs = embedded_objects sp refs i k objs.
  Proof.
    induction objs as [|[ty d] objs IH]; intros i k; [reflexivity|]. cbn [embedded_objects_on embedded_objects]. destruct ty; same; try apply IH.
    unfold parse_embedded_ink_on, parse_embedded_ink. same. apply ink_data_same.
  Qed.
  Lemma rich_text_same id : parse_rich_text_on T id sp = parse_rich_text id sp.
  Proof. unfold parse_rich_text_on, parse_rich_text. same. apply embedded_same. Qed.
  Lemma cell_same e e' id : (forall x, e x = e' x) -> parse_cell_on T e id sp = parse_cell e' id sp.
  Proof. intro H. unfold parse_cell_on, parse_cell. same. Qed.
  Lemma row_same e e' id : (forall x, e x = e' x) -> parse_row_on T e id sp = parse_row e' id sp.
  Proof. intro H. unfold parse_row_on, parse_row. same. now apply cell_same. Qed.
  Lemma table_same e e' id : (forall x, e x = e' x) -> parse_table_on T e id sp = parse_table e' id sp.
  Proof. intro H. unfold parse_table_on, parse_table. same. now apply row_same. Qed.
  Lemma items_same f : (forall id, parse_outline_item_on T f sp id = parse_outline_item f sp id) /\
    (forall id, parse_outline_element_on T f sp id = parse_outline_element f sp id) /\ (forall id, parse_content_on T f sp id = parse_content f sp id).
  Proof.
    induction f as [|f (I1 & I2 & I3)]; [repeat split|]. repeat split; intro id; cbn [parse_outline_item_on parse_outline_item parse_outline_element_on parse_outline_element parse_content_on parse_content].
    - same; try apply I1; try apply I2.
    - same; try apply I1; apply I3.
    - same; try apply image_same; try apply embedded_file_same; try apply rich_text_same; try apply ink_same. now apply table_same.
  Qed.
  Lemma outline_same f id : parse_outline_on T f sp id = parse_outline f sp id.
  Proof. unfold parse_outline_on, parse_outline. same. apply items_same. Qed.
  Lemma page_content_same f id : parse_page_content_on T f sp id = parse_page_content f sp id.
  Proof. unfold parse_page_content_on, parse_page_content. same; first [apply image_same|apply embedded_file_same|apply outline_same|apply ink_same]. Qed.
  Lemma title_same f id : parse_title_on T f sp id = parse_title f sp id.
  Proof. unfold parse_title_on, parse_title. same. apply outline_same. Qed.
  Lemma page_same f : parse_page_on T f sp = parse_page f sp.
  Proof.
    unfold parse_page_on, parse_page. same.
    - unfold page_manifest_on, page_manifest. same.
    - unfold page_node_on, page_node. same.
    - destruct (pd_title _); [|reflexivity]. cbn [opt_map_res]. same. apply title_same.
    - apply page_content_same.
  Qed.
  Lemma toc_entry_same f : forall id, parse_toc_entry_on T f sp id = parse_toc_entry f sp id.
  Proof. induction f as [|f IH]; intro id; [reflexivity|]. cbn [parse_toc_entry_on parse_toc_entry]. same. Qed.
  Lemma toc_same f : parse_toc_on T f sp = parse_toc f sp.
  Proof. unfold parse_toc_on, parse_toc. same. apply toc_entry_same. Qed.
End Space.

Section Stores.
  Context (T : target) (W1 : 1 < usize_count T).
  Lemma section_same f st n : announces_below (usize_count T) st -> parse_section_on T f st n = parse_section f st n.
  Proof.
    intros A. assert (A0 : forall x o, get_object (st_data_root st) x = Some o -> light T o) by (intros x o G; eapply A; [now left|exact G]).
    assert (A1 : forall c sp, object_space st c = Some sp -> forall x o, get_object sp x = Some o -> light T o)
      by (intros c sp Q x o G; exact (A sp x o (or_intror (ex_intro _ c Q)) G)).
    unfold parse_section_on, parse_section. apply rbind_ext. intro m. apply bind_both.
    - unfold section_content_on, section_content. apply rbind_ext. intro id. apply (need_ext T _ A0). intros o L. exact (section_node_parse_same T W1 o L).
    - intro c. cbv beta zeta. apply bind_both; [|intro; reflexivity]. apply map_res_ext. intro id. unfold parse_page_series_on, parse_page_series.
      apply (need_ext T _ A0). intros o L. rewrite (page_series_node_parse_same T W1 o L). apply rbind_ext. intro d. apply map_res_ext. intro cell.
      destruct (object_space st cell) as [sp|] eqn:Q; cbn [ok_or rbind]; [|reflexivity]. exact (page_same T W1 sp (A1 cell sp Q) f).
  Qed.
  (** The package is the same, or the data end too early. *)
  Lemma store_cases E h f d : remaining d < usize_count T -> (E \/ bytes_ok d /\ usize_count T = 2 ^ 64) ->
    open_store_on T h f d = open_store h f d \/ (E /\ open_store h f d = Err UnexpectedEof).
  Proof.
    intros L D. unfold open_store_on, open_store, run. destruct (like_packaging T E d (conj L D)) as [->|(e & ->)]; [now left|right; now split].
  Qed.
  Definition alike h f d : Prop := open_store_on T h f d = open_store h f d /\ forall st, open_store h f d = Ok st -> announces_below (usize_count T) st.
  Lemma plain_alike h f d : plain_on T h f d -> alike h f d.
  Proof. intros (L & N & A). split; [|exact A]. destruct (store_cases True h f d L (or_introl I)) as [E|(_ & E)]; [exact E|now destruct N]. Qed.
  Lemma store_same h f d : alike h f d -> open_store_on T h f d = open_store h f d.
  Proof. intros P. apply P. Qed.
  Lemma buffer_same h f d n : alike h f d -> parse_section_buffer_on T h f d n = parse_section_buffer h f d n.
  Proof.
    intros P. unfold parse_section_buffer_on, parse_section_buffer. rewrite (store_same _ _ _ P). destruct (open_store h f d) as [st| | |] eqn:O; cbn [rbind]; [|reflexivity|reflexivity|reflexivity].
    destruct (_ =? _); [|reflexivity]. apply section_same. destruct P as (_ & P). exact (P st O).
  Qed.
  Lemma file_same h f fs p : (forall d, fs_read fs p = Some d -> alike h f d) -> parse_section_file_on T h f fs p = parse_section_file h f fs p.
  Proof.
    intros P. unfold parse_section_file_on, parse_section_file. destruct (fs_read fs p) as [d|]; cbn [ok_or rbind]; [|reflexivity]. specialize (P d eq_refl).
    rewrite (store_same _ _ _ P). destruct (open_store h f d) as [st| | |] eqn:O; cbn [rbind]; [|reflexivity|reflexivity|reflexivity].
    destruct (_ =? _); [|reflexivity]. apply rbind_ext. intro n. apply section_same. destruct P as (_ & P). exact (P st O).
  Qed.
  Lemma notebook_same san h f fs : (forall p d, fs_read fs p = Some d -> alike h f d) ->
    forall k p, parse_notebook_on T san h k f fs p = parse_notebook san h k f fs p.
  Proof.
    intros P. induction k as [|k IH]; intro p; [reflexivity|]. cbn [parse_notebook_on parse_notebook]. destruct (fs_read fs p) as [d|] eqn:R; cbn [ok_or rbind]; [|reflexivity].
    specialize (P p d R) as Pd. rewrite (store_same _ _ _ Pd). destruct (open_store h f d) as [st| | |] eqn:O; cbn [rbind]; [|reflexivity|reflexivity|reflexivity].
    destruct (_ =? _); [|reflexivity]. apply rbind_ext. intro base. apply bind_both.
    - apply toc_same; [exact W1|]. intros x o G. destruct Pd as (_ & A). exact (A st O _ x o (or_introl eq_refl) G).
    - intros [names color]. apply rbind_ext. intro paths. cbv zeta. cbv beta; apply bind_both; [|intro; reflexivity]. apply map_res_ext. intro q. destruct (fs_is_file fs q).
      + cbv beta; apply bind_both; [|intro; reflexivity]. apply file_same. intros d'. apply P.
      + apply rbind_ext. intro. apply rbind_ext. intro. apply rbind_ext. intro. cbv beta; apply bind_both; [apply IH|intro; reflexivity].
  Qed.
End Stores.

(** On a 64-bit target no sum overflows. *)
Lemma total_sum {A} (f : A -> N) (g : A -> nat) c l : (forall x, In x l -> f x <= c * N.of_nat (g x)) -> sumN f l <= c * N.of_nat (total g l).
Proof.
  induction l as [|x l IH]; intros H; [cbn; lia|]. rewrite sumN_cons. change (total g (x :: l)) with (g x + total g l)%nat.
  pose proof (H x (or_introl eq_refl)). specialize (IH (fun y I => H y (or_intror I))). rewrite Nnat.Nat2N.inj_add, N.mul_add_distr_l. lia.
Qed.
Lemma references_weight v : fits v -> references v <= 2 ^ 32 * N.of_nat (S (value_weight v)).
Proof.
  induction v as [v H|i sets IH] using pvalue_sets_ind; intros F.
  - inversion F; subst; try (cbn [references value_weight]; lia). exfalso. eapply H. reflexivity.
  - rewrite references_sets. inversion F as [| | | | | | | | | | | | |i' sets' K|]; subst.
    etransitivity; [|apply N.mul_le_mono_l; instantiate (1 := N.of_nat (value_weight (VPropertyValues i sets))); lia].
    change (value_weight (VPropertyValues i sets)) with (total (fun s => S (total (fun p => S (value_weight (snd (snd p)))) s)) sets).
    apply total_sum. intros s Is. etransitivity; [apply (total_sum _ (fun p => S (value_weight (snd (snd p)))) (2 ^ 32))|apply N.mul_le_mono_l; lia].
    intros (id & k & v) Ie. apply (IH s Is (id, (k, v)) Ie). exact (K s Is id k v Ie).
Qed.
Lemma announced_weight o : object_fits o -> announced o <= 2 ^ 32 * N.of_nat (object_weight o).
Proof.
  intros (F & _). rewrite announced_sum. etransitivity; [apply (total_sum _ (fun p => S (value_weight (snd (snd p)))) (2 ^ 32))|].
  - intros (id & k & v) Ie. apply references_weight. exact (F id k v Ie).
  - apply N.mul_le_mono_l. unfold object_weight, set_weight. lia.
Qed.
Lemma announces_64 h f d st : bytes_ok d -> N.of_nat (length d) < 2 ^ 32 -> open_store h f d = Ok st -> announces_below (2 ^ 64) st.
Proof.
  intros B L O sp x o S G. destruct (open_store_fits _ _ _ _ B O) as (F0 & F1). assert (F : space_fits sp) by (destruct S as [->|(c & S)]; [exact F0|now apply (F1 c)]).
  assert (W : (space_weight sp <= length d)%nat).
  { destruct (open_light h f d st O sp) as (W & _); [|lia]. destruct S as [->|(c & S)]; [now left|right; exists c].
    exact (lookup_in _ PackageRT.cellid_eqb_eq _ _ _ S). }
  assert (W2 : (object_weight o <= space_weight sp)%nat).
  { unfold space_weight. unfold get_object in G. apply (lookup_in _ PackageRT.exguid_eqb_eq) in G. revert G. clear.
    induction (sp_objects sp) as [|e m IH]; [intros []|]. change (total ?f (e :: m)) with (f e + total f m)%nat. intros [->|I]; [cbn [snd]; lia|]. specialize (IH I). lia. }
  pose proof (announced_weight o (F x o G)). change (2 ^ 64) with (2 ^ 32 * 2 ^ 32). eapply N.le_lt_trans; [exact H|]. apply N.mul_lt_mono_pos_l; [reflexivity|]. lia.
Qed.

Lemma alike_64 checks h f d : bytes_ok d -> N.of_nat (length d) < 2 ^ 32 -> alike (build_64 checks) h f d.
Proof.
  intros B L. split.
  - destruct (store_cases (build_64 checks) False h f d) as [E|([] & _)]; [|right; split; [exact B|reflexivity]|exact E].
    unfold remaining. eapply N.lt_trans; [exact L|reflexivity].
  - intros st O. exact (announces_64 h f d st B L O).
Qed.

(** ** The statements *)
Lemma plain_buffer T h f d n : 1 < usize_count T -> plain_on T h f d -> parse_section_buffer_on T h f d n = parse_section_buffer h f d n.
Proof. intros W P. apply buffer_same; [exact W|]. now apply plain_alike. Qed.
Lemma plain_file T h f fs p : 1 < usize_count T -> (forall d, fs_read fs p = Some d -> plain_on T h f d) ->
  parse_section_file_on T h f fs p = parse_section_file h f fs p.
Proof. intros W P. apply file_same; [exact W|]. intros d R. apply plain_alike. exact (P d R). Qed.
Lemma plain_notebook T san h k f fs p : 1 < usize_count T -> (forall q d, fs_read fs q = Some d -> plain_on T h f d) ->
  parse_notebook_on T san h k f fs p = parse_notebook san h k f fs p.
Proof. intros W P. apply notebook_same; [exact W|]. intros q d R. apply plain_alike. exact (P q d R). Qed.
Lemma buffer_64 checks h f d n : bytes_ok d -> N.of_nat (length d) < 2 ^ 32 ->
  parse_section_buffer_on (build_64 checks) h f d n = parse_section_buffer h f d n.
Proof. intros B L. apply buffer_same; [reflexivity|]. exact (alike_64 checks h f d B L). Qed.
Lemma file_64 checks h f fs p : (forall d, fs_read fs p = Some d -> bytes_ok d /\ N.of_nat (length d) < 2 ^ 32) ->
  parse_section_file_on (build_64 checks) h f fs p = parse_section_file h f fs p.
Proof. intros P. apply file_same; [reflexivity|]. intros d R. destruct (P d R) as (B & L). exact (alike_64 checks h f d B L). Qed.
Lemma notebook_64 checks san h k f fs p : (forall q d, fs_read fs q = Some d -> bytes_ok d /\ N.of_nat (length d) < 2 ^ 32) ->
  parse_notebook_on (build_64 checks) san h k f fs p = parse_notebook san h k f fs p.
Proof. intros P. apply notebook_same; [reflexivity|]. intros q d R. destruct (P q d R) as (B & L). exact (alike_64 checks h f d B L). Qed.

(** For examples: all objects of a store announce little. *)
Definition announces_check (n : N) (st : store) : bool :=
  forallb (fun sp => forallb (fun e => announced (snd e) <? n) (sp_objects sp)) (st_data_root st :: map snd (st_spaces st)).
Lemma announces_checked n st : announces_check n st = true -> announces_below n st.
Proof.
  intros C sp x o S G. unfold announces_check in C. rewrite forallb_forall in C. specialize (C sp). rewrite forallb_forall in C.
  apply (lookup_in _ PackageRT.exguid_eqb_eq) in G. apply N.ltb_lt. refine (C _ (x, o) G). destruct S as [->|(c & S)]; [now left|right].
  apply (lookup_in _ PackageRT.cellid_eqb_eq) in S. exact (in_map snd _ _ S).
Qed.
