(** For every valid outline, page and section, a store that is read as it. *)
From Coq Require Import Lia ZifyBool ZifyNat ZifyN Floats.SpecFloat.
From Verif Require Import Base Codec SpecCodec Package PropSet PropIds SpecPropSet Store Shapes Props Nodes Doc SpecRefs SpecStore SpecValues SpecNodes SpecDoc
  SpecValid SpecFile DescProofs DescProofs2 DescProofs3 EncodeProofs WriteNodes WriteProofs WriteProofs2.

Lemma element_positive e : (1 <= element_size e)%nat.
Proof. destruct e. cbn [element_size]. lia. Qed.
Lemma item_positive i : (1 <= item_size i)%nat.
Proof. destruct i as [level l|e]; cbn [item_size]; [lia|apply element_positive]. Qed.
Lemma content_positive c : (1 <= content_size c)%nat.
Proof. destruct c as [t|[rows cols contents locked widths ? ? ? tags]|g|f|i|]; cbn [content_size table_size]; unfold text_size, image_size, file_size, ink_size; lia. Qed.
Lemma row_positive r : (1 <= row_size r)%nat.
Proof. destruct r. cbn [row_size]. lia. Qed.
Lemma cell_positive c : (1 <= cell_size c)%nat.
Proof. destruct c. cbn [cell_size]. lia. Qed.
Lemma known_unknown l : forallb (fun x => negb (x =? 0x120001)) l = true -> forall sp id, found sp id (fun o => ob_jcid o = 0x120001) -> other_kind sp id l.
Proof.
  intros H sp id (o & Eo & K). exists o. split; [exact Eo|]. rewrite K. split; [left; reflexivity|]. intro I. rewrite forallb_forall in H.
  specialize (H _ I). discriminate H.
Qed.

Section Parts.
  Context (cell : cellid).
  Notation wrote := (wrote cell).
  Notation id_wrote := (WriteProofs.wrote cell id_fits).
  Definition writes_all {X} (ok : X -> Prop) (size : X -> nat) (is : space -> exguid -> X -> Prop) (b : nat) : Prop :=
    forall x, (size x <= b)%nat -> ok x -> N.of_nat (size x) < 2 ^ 21 -> id_wrote (fun sp id => is sp id x) (2 * size x).
  Lemma w_ids {X} ok size is b : @writes_all X ok size is b -> (forall x, (1 <= size x)%nat) -> forall l, (sum_of size l <= b)%nat -> every ok l -> N.of_nat (sum_of size l) < 2 ^ 21 ->
    wrote ids_ok (fun sp ids => Forall2 (is sp) ids l) (2 * sum_of size l).
  Proof.
    intros W P l B H L. rewrite every_in in H. rewrite <- sum_scale.
    assert (K : (length l <= sum_of size l)%nat) by (apply sum_length; intros; apply P).
    eapply w_map with (f := fun x => x); [apply (w_list cell id_fits is (fun x => 2 * size x)%nat)| |].
    - intros x I. pose proof (sum_in size l x I). apply W; [lia|now apply H|lia].
    - intros ts (F & E). split; [exact F|lia].
    - auto.
  Qed.

  Definition upto (b : nat) : Prop :=
    writes_all item_ok item_size item_is b /\ writes_all element_ok element_size element_is b /\ writes_all content_ok content_size content_is b /\
    writes_all table_ok table_size table_is b /\ writes_all row_ok row_size row_is b /\ writes_all cell_ok cell_size cell_is b.
  Lemma w_cells b : writes_all element_ok element_size element_is b -> writes_all cell_ok cell_size cell_is (S b).
  Proof.
    intros He [es colour width indent] B (A1 & A2 & A3 & A4) L. cbn [cell_size] in *.
    eapply w_more; [eapply w_node with (Q := fun ids o => cell_object o (TableCellData None ids width indent colour));
      [apply (w_ids _ _ _ b He element_positive es); [lia|exact A1|lia]|..]|].
    - intros ids id Hi Hid. apply w_cell; [exact Hid|..]; try hv. exact Hi.
    - intros sp ids id _ R (o & Eo & Ho). eapply is_cell; [exact Eo|exact Ho|reflexivity|reflexivity|reflexivity|exact R].
    - lia.
  Qed.
  Lemma w_rows b : writes_all cell_ok cell_size cell_is b -> writes_all row_ok row_size row_is (S b).
  Proof.
    intros He [cs] B A L. cbn [row_size row_ok] in *.
    eapply w_more; [eapply w_node with (Q := fun ids o => row_object o (TableRowData None ids));
      [apply (w_ids _ _ _ b He cell_positive cs); [lia|exact A|lia]|..]|].
    - intros ids id Hi Hid. apply w_row; [exact Hid|..]; try hv. exact Hi.
    - intros sp ids id _ R (o & Eo & Ho). eapply is_row; [exact Eo|exact Ho|exact R].
    - lia.
  Qed.
  Lemma w_tables b : writes_all row_ok row_size row_is b -> writes_all table_ok table_size table_is (S b).
  Proof.
    intros He [rows cols contents locked widths borders ap aself tgs] B (A1 & A2 & A3 & A4 & A5 & A6) L. cbn [table_size] in *.
    eapply w_more; [eapply w_node with (Q := fun (x : list exguid * list tag_data) o => table_object o (TableData 0 (fst x) rows cols locked widths borders ap aself (snd x)));
      [eapply w_pair; [apply (w_ids _ _ _ b He row_positive contents); [lia|exact A3|lia]|apply (w_tags cell tgs A6); lia]|..]|].
    - intros (ids & ts) id (Hi & Ht) Hid. cbn [fst snd] in *. apply w_table; [exact Hid|..]; try hv; try assumption; proj.
      + apply has_def, e_flags; [exact A4|lia].
      + apply has_def, e_widths; [exact A5|lia].
    - intros sp (ids & ts) id _ (R & Rt) (o & Eo & Ho). cbn [fst snd] in *.
      eapply is_table; [exact Eo|exact Ho|reflexivity|reflexivity|reflexivity|reflexivity|reflexivity|reflexivity|reflexivity|exact R|exact Rt].
    - lia.
  Qed.
  Lemma w_contents b : writes_all table_ok table_size table_is b -> writes_all content_ok content_size content_is b.
  Proof.
    intros Ht [t|t|g|f|i|] B A L; cbn [content_size content_ok] in *.
    - eapply w_impl; [apply (w_text_data cell t A L)|]. intros; now apply is_text.
    - eapply w_impl; [apply (Ht t B A L)|]. intros; now apply is_table_content.
    - eapply w_more; [eapply w_impl; [apply (w_image_data cell g A L)|]; intros; now apply is_image|unfold image_size; lia].
    - eapply w_more; [eapply w_impl; [apply (w_file_data cell f A L)|]; intros; now apply is_file|unfold file_size; lia].
    - eapply w_impl; [apply (w_ink_data cell i A L)|]. intros; now apply is_ink.
    - eapply w_more; [eapply w_impl; [apply (w_object cell (fun o => ob_jcid o = 0x120001)); intros; now apply w_unknown|]|lia].
      intros sp id _ F. apply is_unknown. now apply known_unknown.
  Qed.
  Lemma w_elements b : writes_all content_ok content_size content_is b -> writes_all item_ok item_size item_is b -> writes_all element_ok element_size element_is (S b).
  Proof.
    intros Hc Hi [cs lists spacing level l] B (A1 & A2 & A3 & A4 & A5) L. cbn [element_size] in *.
    eapply w_more; [eapply w_node with (Q := fun (x : list exguid * (list exguid * list exguid)) o =>
        exists a, id_fits a /\ element_object o (OutlineElementData 0 0 (snd (snd x)) level (fst x) (fst (snd x)) spacing a a false false false false));
      [eapply w_pair; [apply (w_ids _ _ _ b Hc content_positive cs); [lia|exact A1|lia]|
       eapply w_pair; [|apply (w_ids _ _ _ b Hi item_positive l); [lia|exact A5|lia]]]|..]|].
    - refine (w_ids list_ok list_size list_is (sum_of list_size lists) _ _ lists (le_n _) A2 _); [|intro; unfold list_size; lia|lia].
      intros x _ Hx Lx. eapply w_more; [apply (w_list_data cell x Hx Lx)|unfold list_size; lia].
    - intros (c & ls & is) id (H1 & H2 & H3) Hid. cbn [fst snd] in *.
      destruct (w_element cell id (OutlineElementData 0 0 is level c ls spacing id id false false false false)) as (a & Ea & G & R); try hv; try assumption.
      exists a. refine (conj Ea (conj G _)). intros o O. exists id. split; [exact Hid|]. now apply R.
    - intros sp (c & ls & is) id _ (R1 & R2 & R3) (o & Eo & a & _ & Ho). cbn [fst snd] in *.
      eapply is_outline_element; [exact Eo|exact Ho|reflexivity|reflexivity|exact R1|exact R2|exact R3].
    - lia.
  Qed.
  Lemma w_items b : writes_all item_ok item_size item_is b -> writes_all element_ok element_size element_is (S b) -> writes_all item_ok item_size item_is (S b).
  Proof.
    intros Hi He [level l|e] B A L; cbn [item_size item_ok] in *.
    - destruct A as (A1 & A2). eapply w_more; [eapply w_node with (Q := fun ids o => group_object o (OutlineGroupData 0 ids level));
        [apply (w_ids _ _ _ b Hi item_positive l); [lia|exact A2|lia]|..]|].
      + intros ids id Hd Hid. apply w_group; [exact Hid|..]; try hv. exact Hd.
      + intros sp ids id _ R (o & Eo & Ho). eapply is_group; [exact Eo|exact Ho|reflexivity|exact R].
      + lia.
    - eapply w_impl; [apply (He e B A L)|]. intros; now apply is_element.
  Qed.
  Lemma upto_all b : upto b.
  Proof.
    induction b as [|b (I1 & I2 & I3 & I4 & I5 & I6)].
    - refine (conj _ (conj _ (conj _ (conj _ (conj _ _))))); intros x H; exfalso.
      + pose proof (item_positive x). lia. + pose proof (element_positive x). lia. + pose proof (content_positive x). lia.
      + destruct x. cbn [table_size] in H. lia. + pose proof (row_positive x). lia. + pose proof (cell_positive x). lia.
    - pose proof (w_cells b I2) as J6. pose proof (w_rows b I6) as J5. pose proof (w_tables b I5) as J4. pose proof (w_contents (S b) J4) as J3.
      pose proof (w_elements b I3 I1) as J2. pose proof (w_items b I1 J2) as J1. exact (conj J1 (conj J2 (conj J3 (conj J4 (conj J5 J6))))).
  Qed.

  Lemma w_outline_data x : outline_ok x -> N.of_nat (outline_size x) < 2 ^ 21 -> id_wrote (fun sp id => outline_is sp id x) (2 * outline_size x).
  Proof.
    intros (A1 & A2 & A3 & A4 & A5 & A6 & A7 & A8 & A9 & A10) L. unfold outline_size in *.
    eapply w_more; [eapply w_node with (Q := fun ids o => outline_object o (OutlineData 0 ids (ol_child_level x) (ol_layout_max_height x) (ol_layout_max_width x)
        (ol_layout_reserved_width x) (ol_layout_minimum_outline_width x) false (ol_is_layout_size_set_by_user x) (ol_offset_horizontal x)
        (ol_offset_vertical x) (ol_list_spacing x) (ol_indents x) (ol_alignment_in_parent x) (ol_alignment_self x) false false false false false false false));
      [apply (w_ids item_ok item_size item_is _ (proj1 (upto_all (sum_of item_size (ol_items x)))) item_positive (ol_items x)); [lia|exact A10|lia]|..]|].
    - intros ids id Hd Hid. apply w_outline; [exact Hid|..]; try hv. exact Hd.
    - intros sp ids id _ R (o & Eo & Ho). exists o. split; [exact Eo|]. eexists. split; [exact Ho|].
      refine (conj eq_refl (conj eq_refl (conj eq_refl (conj eq_refl (conj eq_refl (conj eq_refl (conj eq_refl (conj eq_refl (conj eq_refl (conj eq_refl
        (conj eq_refl (conj eq_refl R)))))))))))).
    - lia.
  Qed.
  Lemma w_page_content c : page_content_ok c -> N.of_nat (page_content_size c) < 2 ^ 21 -> id_wrote (fun sp id => page_content_is sp id c) (2 * page_content_size c).
  Proof.
    intros A L. destruct c as [x|g|f|i|]; cbn [page_content_ok page_content_size] in *.
    - eapply w_impl; [apply (w_outline_data x A L)|]. intros; now apply pc_outline.
    - eapply w_more; [eapply w_impl; [apply (w_image_data cell g A L)|]; intros; now apply pc_image|unfold image_size; lia].
    - eapply w_more; [eapply w_impl; [apply (w_file_data cell f A L)|]; intros; now apply pc_file|unfold file_size; lia].
    - eapply w_impl; [apply (w_ink_data cell i A L)|]. intros; now apply pc_ink.
    - eapply w_more; [eapply w_impl; [apply (w_object cell (fun o => ob_jcid o = 0x120001)); intros; now apply w_unknown|]|lia].
      intros sp id _ F. apply pc_unknown. now apply known_unknown.
  Qed.
  Lemma page_content_positive c : (1 <= page_content_size c)%nat.
  Proof. destruct c; cbn [page_content_size]; unfold outline_size, image_size, file_size, ink_size; lia. Qed.
  Lemma w_title_data t : title_ok t -> N.of_nat (title_size t) < 2 ^ 21 -> id_wrote (fun sp id => title_is sp id t) (2 * title_size t).
  Proof.
    intros (A1 & A2 & A3) L. unfold title_size in *.
    eapply w_more; [eapply w_node with (Q := fun ids o => title_object o (TitleData 0 ids (ti_offset_horizontal t) (ti_offset_vertical t) (ti_alignment_in_parent t) (ti_alignment_self t)));
      [refine (w_ids outline_ok outline_size outline_is (sum_of outline_size (ti_contents t)) _ _ (ti_contents t) (le_n _) A1 _); [|intro; unfold outline_size; lia|lia]|..]|].
    - intros x _ Hx Lx. now apply w_outline_data.
    - intros ids id Hd Hid. apply w_title; [exact Hid|..]; try hv. exact Hd.
    - intros sp ids id _ R (o & Eo & Ho). exists o. split; [exact Eo|]. eexists. split; [exact Ho|].
      refine (conj eq_refl (conj eq_refl (conj eq_refl (conj eq_refl R)))).
    - lia.
  Qed.
  (** The objects of a page: metadata and manifest. *)
  Definition page_at (sp : space) (roots : exguid * exguid) (p : page) : Prop :=
    exists m pid d, found sp (fst roots) (fun o => page_meta o m) /\ found sp (snd roots) (fun o => manifest_node o pid) /\
      found sp pid (fun o => page_object o d) /\
      pg_level p = pm_page_level m /\ pg_author p = pd_author d /\ pg_height p = pd_page_height d /\
      both (title_is sp) (pd_title d) (pg_title p) /\ Forall2 (page_content_is sp) (pd_content d) (pg_contents p).
  Lemma w_page_data p : page_ok p -> N.of_nat (page_size p) < 2 ^ 21 ->
    wrote (fun r => id_fits (fst r) /\ id_fits (snd r)) (fun sp r => page_at sp r p) (2 * page_size p + 2).
  Proof.
    intros (A1 & A2 & A3 & A4 & A5) L. unfold page_size in *.
    assert (P : id_wrote (fun sp pid => exists d, found sp pid (fun o => page_object o d) /\ pg_author p = pd_author d /\ pg_height p = pd_page_height d /\
      both (title_is sp) (pd_title d) (pg_title p) /\ Forall2 (page_content_is sp) (pd_content d) (pg_contents p))
      (2 * opt_size title_size (pg_title p) + 2 * sum_of page_content_size (pg_contents p) + 1)).
    { eapply w_more; [eapply w_node with (Q := fun (x : option exguid * list exguid) o => page_object o (PageData None None (pg_author p) (snd x) (fst x) false None (pg_height p) None None None None None None
          PsAuto false)); [eapply w_pair|..]|].
      - apply (w_opt cell id_fits title_is (fun t => 2 * title_size t)%nat). intros t E. rewrite E in A1, L. cbn [if_any opt_size] in *. apply w_title_data; [exact A1|lia].
      - refine (w_ids page_content_ok page_content_size page_content_is (sum_of page_content_size (pg_contents p)) _ page_content_positive (pg_contents p) (le_n _) A5 _); [|lia].
        intros x _ Hx Lx. now apply w_page_content.
      - intros (t & ids) id (Ht & Hd) Hid. cbn [fst snd] in *. apply w_page; [exact Hid|..]; try hv; assumption.
      - intros sp (t & ids) id _ (R1 & R2) (o & Eo & Ho). eexists. split; [exists o; split; [exact Eo|exact Ho]|]. refine (conj eq_refl (conj eq_refl (conj R1 R2))).
      - destruct (pg_title p); cbn [opt_size]; lia. }
    eapply w_more; [eapply w_map with (f := fun x : exguid * exguid => x); [eapply w_pair; [|eapply w_node with (Q := fun pid o => manifest_node o pid); [exact P|..]]|..]|].
    - apply (w_object cell (fun o => page_meta o (PageMetaData 0 [] None None (pg_level p) 0 false))). intros id Hid. apply w_page_meta; [exact Hid|..]; try hv.
      apply has_req, e_text; [split; constructor|reflexivity].
    - intros pid id Hp Hid. now apply w_manifest.
    - intros sp pid id _ R F. exact (ex_intro (fun pid => (exists d, found sp pid (fun o => page_object o d) /\ pg_author p = pd_author d /\ pg_height p = pd_page_height d /\
      both (title_is sp) (pd_title d) (pg_title p) /\ Forall2 (page_content_is sp) (pd_content d) (pg_contents p)) /\ found sp id (fun o => manifest_node o pid)) pid (conj R F)).
    - auto.
    - intros sp (m & c) _ (Rm & pid & (d & D1 & D2 & D3 & D4 & D5) & Rc). cbn [fst snd] in *.
      eexists _, pid, d. refine (conj Rm (conj Rc (conj D1 (conj eq_refl (conj D2 (conj D3 (conj D4 D5))))))).
    - lia.
  Qed.
End Parts.
