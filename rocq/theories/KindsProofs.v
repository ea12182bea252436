(** Which kinds of error each layer can return. *)
From Coq Require Import Lia.
From Verif Require Import Base Codec Package PropSet PropIds Store Shapes Props Nodes Doc Notebook SpecKinds.

(** [only K r]: if [r] is an error, its kind is in [K]. *)
Definition only {A} (K : list ekind) (r : res A) : Prop := forall e, r = Err e -> In e K.
Definition ponly {A} (K : list ekind) (p : parser A) : Prop := forall bs, only K (p bs).

Lemma only_incl : forall {A} K L (r : res A), incl K L -> only K r -> only L r.
Proof. intros A K L r I H e E. apply I, H, E. Qed.

Lemma only_bind : forall {A B} K (r : res A) (f : A -> res B),
  only K r -> (forall a, only K (f a)) -> only K (rbind r f).
Proof.
  intros A B K r f H F e. destruct r; cbn [rbind]; try discriminate.
  - apply F.
  - intros E. injection E as ->. apply H. reflexivity.
Qed.
Lemma only_ok : forall {A} K (a : A), only K (Ok a).
Proof. intros A K a e. discriminate. Qed.
Lemma only_panic : forall {A} K, only K (@Panic A).
Proof. intros A K e. discriminate. Qed.
Lemma only_fuel : forall {A} K, only K (@OutOfFuel A).
Proof. intros A K e. discriminate. Qed.
Lemma only_err : forall {A} K e, In e K -> only K (@Err A e).
Proof. intros A K e I e' E. injection E as <-. exact I. Qed.
Lemma only_ok_or : forall {A} K e (o : option A), In e K -> only K (ok_or e o).
Proof. intros A K e [a|] I; [apply only_ok|apply only_err, I]. Qed.
Lemma only_opt : forall {A B} K (f : A -> res B) o,
  (forall a, only K (f a)) -> only K (opt_map_res f o).
Proof.
  intros A B K f [a|] F; [|apply only_ok]. cbn [opt_map_res]. apply only_bind; [apply F|].
  intro; apply only_ok.
Qed.
Lemma only_map : forall {A B} K (f : A -> res B) l,
  (forall a, only K (f a)) -> only K (map_res f l).
Proof.
  intros A B K f l F. induction l as [|a l IH]; cbn [map_res]; [apply only_ok|].
  apply only_bind; [apply F|]. intro b. apply only_bind; [exact IH|]. intro; apply only_ok.
Qed.

Lemma ponly_bind : forall {A B} K (p : parser A) (f : A -> parser B),
  ponly K p -> (forall a, ponly K (f a)) -> ponly K (pbind p f).
Proof.
  intros A B K p f P F bs e. unfold pbind. specialize (P bs).
  destruct (p bs) as [[a r]| | |]; try discriminate.
  - apply F.
  - intros E. injection E as ->. apply P. reflexivity.
Qed.
Lemma ponly_ret : forall {A} K (a : A), ponly K (pret a).
Proof. intros A K a bs. apply only_ok. Qed.
Lemma ponly_fail : forall {A} K e, In e K -> ponly K (@pfail A e).
Proof. intros A K e I bs. apply only_err, I. Qed.
Lemma ponly_lift : forall {A} K (r : res A), only K r -> ponly K (plift r).
Proof. intros A K r H bs. apply only_bind; [exact H|]. intro; apply only_ok. Qed.
Lemma ponly_peek : forall {A} K (f : N -> parser A),
  In UnexpectedEof K -> (forall b, ponly K (f b)) -> ponly K (with_peek f).
Proof.
  intros A K f I F [|b bs]; unfold with_peek, peek; [apply only_err, I|apply F].
Qed.
Lemma ponly_read : forall K n, In UnexpectedEof K -> ponly K (read n).
Proof. intros K n I bs. unfold read. destruct (_ <? _); [apply only_err, I|apply only_ok]. Qed.
Lemma ponly_advance : forall K n, In UnexpectedEof K -> ponly K (advance n).
Proof. intros K n I bs. unfold advance. destruct (_ <? _); [apply only_err, I|apply only_ok]. Qed.
Lemma ponly_fuel : forall {A} K, ponly K (fun _ => @OutOfFuel (A * list N)).
Proof. intros A K bs. apply only_fuel. Qed.
Lemma ponly_rep_fuel : forall {A} K (p : parser A) f n, ponly K p -> ponly K (rep_fuel p f n).
Proof.
  intros A K p f. induction f as [|f IH]; intros n P; cbn [rep_fuel]; destruct (n =? 0);
    try apply ponly_ret; [apply ponly_fuel|].
  apply ponly_bind; [exact P|]. intro. apply ponly_bind; [apply IH, P|]. intro; apply ponly_ret.
Qed.
Lemma ponly_rep : forall {A} K (p : parser A) n, ponly K p -> ponly K (rep n p).
Proof. intros A K p n P bs. apply ponly_rep_fuel, P. Qed.
Lemma ponly_until : forall {A} K fin fp (body : A -> parser A) s,
  In UnexpectedEof K -> ponly K fp -> (forall s, ponly K (body s)) -> ponly K (until fin fp body s).
Proof.
  intros A K fin fp body s I P B bs. unfold until. generalize (S (length bs)). intro f.
  revert s bs. induction f as [|f IH]; intros s bs; cbn [until_fuel]; [apply only_fuel|].
  revert bs. apply ponly_peek; [exact I|]. intro b. destruct (fin b).
  - apply ponly_bind; [exact P|]. intro; apply ponly_ret.
  - apply ponly_bind; [apply B|]. intro s'. exact (IH s').
Qed.
Lemma only_run : forall {A} K (p : parser A) d, ponly K p -> only K (run p d).
Proof. intros A K p d P. apply only_bind; [apply P|]. intros [a r]. apply only_ok. Qed.

Ltac member := solve [cbn; tauto].

(** Decomposes [only] and [ponly] goals along the program; unknown functions are
    looked up in [kinds], then unfolded. *)
Create HintDb kinds discriminated.
Ltac head t := lazymatch t with ?f _ => head f | _ => t end.
Ltac open_head := match goal with
  | |- only _ ?r => let h := head r in unfold h
  | |- ponly _ ?r => let h := head r in unfold h
  end.
Ltac kind_step :=
  cbv beta;
  lazymatch goal with
  | |- only _ (rbind _ _) => apply only_bind; [|let x := fresh "x" in intro x]
  | |- only _ (Ok _) => apply only_ok
  | |- only _ Panic => apply only_panic
  | |- only _ OutOfFuel => apply only_fuel
  | |- only _ (Err _) => apply only_err; member
  | |- only _ (ok_or _ _) => apply only_ok_or; member
  | |- only _ (opt_map_res _ _) => apply only_opt; intro
  | |- only _ (map_res _ _) => apply only_map; intro
  | |- only _ (run _ _) => apply only_run
  | |- only _ (match ?x with _ => _ end) => destruct x
  | |- ponly _ (pbind _ _) => apply ponly_bind; [|intro]
  | |- ponly _ (pret _) => apply ponly_ret
  | |- ponly _ (pfail _) => apply ponly_fail; member
  | |- ponly _ (plift _) => apply ponly_lift
  | |- ponly _ (with_peek _) => apply ponly_peek; [member|intro]
  | |- ponly _ (read _) => apply ponly_read; member
  | |- ponly _ (advance _) => apply ponly_advance; member
  | |- ponly _ (rep _ _) => apply ponly_rep
  | |- ponly _ (rep_fuel _ _ _) => apply ponly_rep_fuel
  | |- ponly _ (until _ _ _ _) => apply ponly_until; [member| |intro]
  | |- ponly _ (match ?x with _ => _ end) => destruct x
  | |- ponly _ (let x := _ in _) => cbv zeta
  | |- only _ (let x := _ in _) => cbv zeta
  | |- _ => first [solve [auto with kinds nocore] | open_head]
  end.
Ltac kinds := repeat kind_step.

(** ** Package and store *)
Local Notation KF := container_kinds.

Lemma pvalues_kinds : forall (pv : N -> parser pvalue) ids,
  (forall id, ponly KF (pv id)) -> forall i m, ponly KF (pvalues_parse pv i ids m).
Proof.
  intros pv ids P. induction ids as [|id ids IH]; intros i m; cbn [pvalues_parse]; [kinds|].
  apply ponly_bind; [apply P|]. intro. apply IH.
Qed.
Lemma propset_kinds : ponly KF propset_parse.
Proof.
  intro bs. unfold propset_parse. generalize (S (length bs)). intro f. revert bs.
  change (ponly KF (propset_fuel f)).
  induction f as [|f IH]; cbn [propset_fuel]; [apply ponly_fuel|].
  apply ponly_bind; [kinds|]. intro. apply ponly_bind; [kinds|]. intro. apply pvalues_kinds.
  intro id. unfold pvalue_parse. generalize (pid_type id). intro t.
  kinds; exact IH.
Qed.
#[export] Hint Resolve propset_kinds : kinds.

Lemma exguid_kinds : ponly KF exguid_parse.
Proof. kinds. Qed.
Lemma compact_kinds : ponly KF compact_parse.
Proof. kinds. Qed.
Lemma serial_kinds : ponly KF serial_parse.
Proof. kinds. Qed.
Lemma start_kinds : forall t, ponly KF (try_parse t).
Proof. intro. kinds. Qed.
Lemma start16_kinds : forall t, ponly KF (try_parse_16 t).
Proof. intro. kinds. Qed.
Lemma end8_kinds : forall t, ponly KF (try_parse_end_8 t).
Proof. intro. kinds. Qed.
#[export] Hint Resolve exguid_kinds compact_kinds serial_kinds start_kinds start16_kinds end8_kinds : kinds.

Lemma package_kinds : ponly KF package_parse.
Proof. kinds. Qed.
#[export] Hint Resolve package_kinds : kinds.

Lemma legacy_kinds : forall a b c d, ponly KF (parse_legacy a b c d).
Proof. intros. kinds. Qed.
#[export] Hint Resolve legacy_kinds : kinds.
Lemma store_file_kinds : forall n, ponly KF (parse_packaging n).
Proof.
  intro n. unfold parse_packaging. apply ponly_bind; [kinds|]. intros log bs. cbv zeta.
  apply (ponly_bind KF (plift (log_offset log (n - remaining bs)))); [kinds|]. intro. kinds.
Qed.
#[export] Hint Resolve store_file_kinds : kinds.
Lemma packaging_kinds : ponly KF packaging_parse.
Proof. intro bs. unfold packaging_parse. cbv zeta. apply (ponly_bind KF guid_parse); [kinds|]. intro. kinds. Qed.
#[export] Hint Resolve packaging_kinds : kinds.

Lemma oprops_kinds : ponly KF oprops_parse.
Proof. kinds. Qed.
#[export] Hint Resolve oprops_kinds : kinds.
Lemma object_kinds : forall i c s g pk, only KF (object_parse i c s g pk).
Proof. intros. kinds. Qed.
#[export] Hint Resolve object_kinds : kinds.
Lemma group_objects_kinds : forall pk c s g d is objs, only KF (group_objects pk c s g d is objs).
Proof.
  intros pk c s g d is. induction is as [|i is IH]; intro objs; cbn [group_objects]; kinds; apply IH.
Qed.
#[export] Hint Resolve group_objects_kinds : kinds.
Lemma groups_kinds : forall pk c s gs objs, only KF (parse_groups pk c s gs objs).
Proof. intros pk c s gs. induction gs as [|g gs IH]; intro objs; cbn [parse_groups]; kinds; apply IH. Qed.
#[export] Hint Resolve groups_kinds : kinds.
Lemma walk_kinds : forall f c s si pk cache r objs rts,
  only KF (revision_walk f c s si pk cache r objs rts).
Proof.
  intros f c s si pk cache. induction f as [|f IH]; intros [r|] objs rts; cbn [revision_walk]; kinds; apply IH.
Qed.
#[export] Hint Resolve walk_kinds : kinds.
Lemma spaces_kinds : forall h f si pk cache d ms sps, only KF (parse_spaces h f si pk cache d ms sps).
Proof. intros h f si pk cache d ms. induction ms as [|m ms IH]; intro sps; cbn [parse_spaces]; kinds; apply IH. Qed.
#[export] Hint Resolve spaces_kinds : kinds.
Lemma open_store_kinds : forall h f d, only KF (open_store h f d).
Proof. intros. kinds. Qed.

(** ** Documents *)
Local Notation KD := document_kinds.

Lemma prop_kinds : forall {A} (conv : pvalue -> option A) i o, only toc_kinds (get_prop conv i o).
Proof. intros. kinds. Qed.
Lemma decode_uint_kinds : forall d, only [MalformedOneNoteFileData] (decode_uint d).
Proof.
  intro d. unfold decode_uint. apply only_bind; [|intros [v c]; kinds].
  generalize 0 at 1. generalize 0. induction d as [|b d IH]; intros v c; cbn [decode_uint_loop]; kinds; apply IH.
Qed.
Lemma decode_kinds : forall d, only [MalformedOneNoteFileData] (decode_signed d).
Proof.
  intro d. unfold decode_signed. apply only_bind; [|intro; kinds]. unfold decode.
  apply only_bind; [apply decode_uint_kinds|]. intros [l o]. generalize (S (length d)). intro f.
  generalize (N.shiftr l 1). generalize (skipn (N.to_nat o) d). clear.
  induction f as [|f IH]; intros d n; cbn [decode_loop]; destruct (n =? 0); try (kinds; fail).
  destruct d; [kinds|]. apply only_bind; [apply decode_uint_kinds|]. intros [v off].
  apply only_bind; [apply IH|]. intro. kinds.
Qed.
Lemma decode_doc_kinds : forall d, only KD (decode_signed d).
Proof. intro. eapply only_incl; [|apply decode_kinds]. intro; cbn; tauto. Qed.
#[export] Hint Resolve decode_doc_kinds : kinds.
Lemma prop_doc_kinds : forall {A} (conv : pvalue -> option A) i o, only KD (get_prop conv i o).
Proof. intros. kinds. Qed.
#[export] Hint Resolve prop_doc_kinds : kinds.
Lemma string_doc_kinds : forall i o, only KD (prop_string i o).
Proof. intros. kinds. Qed.
Lemma objects_doc_kinds : forall i o, only KD (prop_objects i o).
Proof. intros. kinds. Qed.
Lemma object_doc_kinds : forall i o, only KD (prop_object i o).
Proof. intros. kinds. Qed.
Lemma color_ref_doc_kinds : forall i o, only KD (color_ref_parse i o).
Proof. intros. unfold color_ref_parse. apply only_bind; [kinds|]. intro. apply only_opt. intro v.
  generalize (le_byte 3 v). intro k. kinds. Qed.
Lemma layout_doc_kinds : forall i o, only KD (layout_alignment_parse i o).
Proof.
  intros i o. unfold layout_alignment_parse. apply only_bind; [kinds|]. intros [v|]; [|kinds].
  generalize (N.land v 7) (N.land (N.shiftr v 3) 1) (N.land (N.shiftr v 16) 1) (N.land (N.shiftr v 19) 1).
  intros a b c d. kinds.
Qed.
Lemma shape_kinds : forall v, only KD (shape_parse v).
Proof. intro. kinds. Qed.
#[export] Hint Resolve string_doc_kinds objects_doc_kinds object_doc_kinds color_ref_doc_kinds layout_doc_kinds shape_kinds : kinds.
Lemma tags_kinds : forall o, only KD (tags_parse o).
Proof. intro. kinds. Qed.
Lemma text_run_data_kinds : forall o, only KD (text_run_data_parse o).
Proof. intro. kinds. Qed.
Lemma section_node_kinds : forall o, only KD (section_node_parse o).
Proof. intro. kinds. Qed.
Lemma section_metadata_kinds : forall o, only KD (section_metadata_parse o).
Proof. intro. kinds. Qed.
Lemma page_series_node_kinds : forall o, only KD (page_series_node_parse o).
Proof. intro. kinds. Qed.
Lemma page_node_kinds : forall o, only KD (page_node_parse o).
Proof. intro. kinds. Qed.
Lemma page_metadata_kinds : forall o, only KD (page_metadata_parse o).
Proof. intro. kinds. Qed.
Lemma page_manifest_kinds : forall o, only KD (page_manifest_parse o).
Proof. intro. kinds. Qed.
Lemma title_node_kinds : forall o, only KD (title_node_parse o).
Proof. intro. kinds. Qed.
Lemma embedded_file_container_kinds : forall o, only KD (embedded_file_container_parse o).
Proof. intro. kinds. Qed.
Lemma embedded_file_node_kinds : forall o, only KD (embedded_file_node_parse o).
Proof. intro. kinds. Qed.
Lemma picture_container_kinds : forall o, only KD (picture_container_parse o).
Proof. intro. kinds. Qed.
Lemma iframe_node_kinds : forall o, only KD (iframe_node_parse o).
Proof. intro. kinds. Qed.
Lemma image_node_kinds : forall o, only KD (image_node_parse o).
Proof. intro. kinds. Qed.
Lemma embedded_ink_kinds : forall o, only KD (embedded_ink_parse o).
Proof. intro. kinds. Qed.
Lemma ink_container_kinds : forall o, only KD (ink_container_parse o).
Proof. intro. kinds. Qed.
Lemma ink_data_node_kinds : forall o, only KD (ink_data_node_parse o).
Proof. intro. kinds. Qed.
Lemma ink_stroke_node_kinds : forall o, only KD (ink_stroke_node_parse o).
Proof. intro. kinds. Qed.
Lemma stroke_properties_kinds : forall o, only KD (stroke_properties_parse o).
Proof. intro. kinds. Qed.
Lemma math_data_kinds : forall o, only KD (math_data_parse o).
Proof. intro. kinds. Qed.
Lemma tag_definition_kinds : forall o, only KD (tag_definition_parse o).
Proof. intro. kinds. Qed.
Lemma number_list_kinds : forall o, only KD (number_list_parse o).
Proof. intro. kinds. Qed.
Lemma style_kinds : forall o, only KD (style_parse o).
Proof. intro. kinds. Qed.
Lemma rich_text_node_kinds : forall o, only KD (rich_text_node_parse o).
Proof. intro. kinds. Qed.
Lemma outline_element_node_kinds : forall o, only KD (outline_element_node_parse o).
Proof. intro. kinds. Qed.
Lemma outline_group_node_kinds : forall o, only KD (outline_group_node_parse o).
Proof. intro. kinds. Qed.
Lemma outline_node_kinds : forall o, only KD (outline_node_parse o).
Proof. intro. kinds. Qed.
Lemma table_cell_node_kinds : forall o, only KD (table_cell_node_parse o).
Proof. intro. kinds. Qed.
Lemma table_node_kinds : forall o, only KD (table_node_parse o).
Proof. intro. kinds. Qed.
Lemma table_row_node_kinds : forall o, only KD (table_row_node_parse o).
Proof. intro. kinds. Qed.
#[export] Hint Resolve tags_kinds text_run_data_kinds section_node_kinds section_metadata_kinds page_series_node_kinds page_node_kinds page_metadata_kinds page_manifest_kinds title_node_kinds embedded_file_container_kinds embedded_file_node_kinds picture_container_kinds iframe_node_kinds image_node_kinds embedded_ink_kinds ink_container_kinds ink_data_node_kinds ink_stroke_node_kinds stroke_properties_kinds math_data_kinds tag_definition_kinds number_list_kinds style_kinds rich_text_node_kinds outline_element_node_kinds outline_group_node_kinds outline_node_kinds table_cell_node_kinds table_node_kinds table_row_node_kinds : kinds.

Lemma note_tags_kinds : forall t sp, only KD (note_tags t sp).
Proof. intros. kinds. Qed.
#[export] Hint Resolve note_tags_kinds : kinds.
Lemma parse_list_kinds : forall i sp, only KD (parse_list i sp).
Proof. intros. kinds. Qed.
Lemma parse_image_kinds : forall i sp, only KD (parse_image i sp).
Proof. intros. kinds. Qed.
Lemma parse_file_kinds : forall i sp, only KD (parse_embedded_file i sp).
Proof. intros. kinds. Qed.
Lemma parse_ink_data_kinds : forall i sp x y, only KD (parse_ink_data i sp x y).
Proof. intros. kinds. Qed.
#[export] Hint Resolve parse_list_kinds parse_image_kinds parse_file_kinds parse_ink_data_kinds : kinds.
Lemma parse_ink_kinds : forall i sp, only KD (parse_ink i sp).
Proof. intros. kinds. Qed.
Lemma embedded_objects_kinds : forall sp refs objs i k, only KD (embedded_objects sp refs i k objs).
Proof.
  intros sp refs objs. induction objs as [|[t d] objs IH]; intros i k; cbn [embedded_objects]; kinds; apply IH.
Qed.
#[export] Hint Resolve parse_ink_kinds embedded_objects_kinds : kinds.
Lemma rich_text_kinds : forall i sp, only KD (parse_rich_text i sp).
Proof. intros. kinds. Qed.
#[export] Hint Resolve rich_text_kinds : kinds.
Lemma outline_kinds : forall f sp,
  (forall i, only KD (parse_outline_item f sp i)) /\ (forall i, only KD (parse_outline_element f sp i)) /\
  (forall i, only KD (parse_content f sp i)).
Proof.
  intros f sp. induction f as [|f (I1 & I2 & I3)].
  - repeat split; intro; cbn; apply only_fuel.
  - repeat split; intro i; cbn [parse_outline_item parse_outline_element parse_content]; kinds; auto.
Qed.
Lemma item_kinds : forall f sp i, only KD (parse_outline_item f sp i).
Proof. intros. apply outline_kinds. Qed.
#[export] Hint Resolve item_kinds : kinds.
Lemma section_kinds : forall f st n, only KD (Doc.parse_section f st n).
Proof. intros. kinds. Qed.

(** ** Notebooks *)
Lemma toc_node_kinds : forall o, only toc_kinds (toc_parse o).
Proof. intro. kinds. Qed.
Lemma toc_entry_kinds : forall f sp i, only toc_kinds (parse_toc_entry f sp i).
Proof.
  intros f sp. induction f as [|f IH]; intro i; cbn [parse_toc_entry]; [apply only_fuel|].
  apply only_bind; [kinds|]. intro o. apply only_bind; [apply toc_node_kinds|]. intro t.
  destruct (tc_filename t); [kinds|]. apply only_bind; [apply only_map, IH|]. intro; kinds.
Qed.
Lemma parse_toc_kinds : forall f sp, only toc_kinds (parse_toc f sp).
Proof.
  intros. unfold parse_toc. apply only_bind; [kinds|]. intro.
  apply only_bind; [apply toc_entry_kinds|]. intro; kinds.
Qed.

Lemma section_stages : forall h f d n e, parse_section_buffer h f d n = Err e ->
  (open_store h f d = Err e /\ In e container_kinds) \/
  (exists st, open_store h f d = Ok st /\ st_schema st <> section_schema /\ e = NotASectionFile) \/
  (exists st, open_store h f d = Ok st /\ st_schema st = section_schema /\
     Doc.parse_section f st n = Err e /\ In e document_kinds).
Proof.
  intros h f d n e. unfold parse_section_buffer. pose proof (open_store_kinds h f d) as K.
  destruct (open_store h f d) as [st|x| |]; cbn [rbind]; try discriminate.
  - destruct (N.eqb_spec (st_schema st) section_schema) as [Q|Q]; intro E.
    + right; right. exists st. repeat split; auto. exact (section_kinds _ _ _ _ E).
    + right; left. exists st. injection E as <-. auto.
  - intro E. injection E as <-. left. split; [reflexivity|]. apply K. reflexivity.
Qed.

Definition section_all : list ekind := NotASectionFile :: container_kinds ++ document_kinds.

Lemma section_buffer_kinds : forall h f d n, only section_all (parse_section_buffer h f d n).
Proof.
  intros h f d n e E. apply section_stages in E. unfold section_all.
  destruct E as [(_ & I)|[(st & _ & _ & ->)|(st & _ & _ & _ & I)]]; cbn [In]; rewrite ?in_app_iff; auto.
Qed.

Definition notebook_all : list ekind :=
  NotATocFile :: toc_kinds ++ path_kinds ++ section_all.

Ltac widen L := eapply only_incl; [|apply L]; intro; cbn; tauto.

Lemma section_file_kinds : forall h f fs p, only (IO :: InvalidPath :: section_all) (parse_section_file h f fs p).
Proof.
  intros. unfold parse_section_file. apply only_bind; [kinds|]. intro d.
  apply only_bind; [widen open_store_kinds|]. intro st. destruct (_ =? _); [|kinds].
  apply only_bind; [kinds|]. intro n. widen section_kinds.
Qed.

Lemma sanitize_kinds : forall s cs, only [InvalidPath] (sanitize_components s cs).
Proof. intros s cs. induction cs as [|c cs IH]; cbn [sanitize_components]; kinds; exact IH. Qed.
Lemma resolve_kinds : forall s fs b n, only [InvalidPath] (resolve_entry_path s fs b n).
Proof.
  intros. unfold resolve_entry_path. destruct (is_absolute n); [kinds|]. apply only_bind; [apply sanitize_kinds|]. intro. kinds.
Qed.
Lemma find_toc_kinds : forall l, only [IO; TocFileMissing] (find_toc l).
Proof. induction l as [|[n|] l IH]; cbn [find_toc]; kinds; exact IH. Qed.

Lemma notebook_kinds : forall s h d f fs p, only notebook_all (parse_notebook s h d f fs p).
Proof.
  intros s h d f fs. induction d as [|d IH]; intro p; cbn [parse_notebook]; [apply only_fuel|].
  apply only_bind; [kinds|]. intro data. apply only_bind; [widen open_store_kinds|]. intro st.
  destruct (_ =? _); [|kinds]. apply only_bind; [kinds|]. intro b.
  apply only_bind; [widen parse_toc_kinds|]. intros [names color].
  apply only_bind; [apply only_map; intro; widen resolve_kinds|]. intro paths. cbv zeta.
  apply only_bind; [|intro; kinds]. apply only_map. intro q. destruct (fs_is_file fs q).
  - apply only_bind; [widen section_file_kinds|]. intro; kinds.
  - apply only_bind; [kinds|]. intro. apply only_bind; [kinds|]. intro l.
    apply only_bind; [widen find_toc_kinds|]. intro t. apply only_bind; [apply IH|]. intro; kinds.
Qed.

Lemma notebook_never : forall s h d f fs p e, parse_notebook s h d f fs p = Err e ->
  e <> InvalidUuid /\ e <> Utf16MissingNull.
Proof.
  intros s h d f fs p e E. apply notebook_kinds in E.
  cbn in E. intuition (subst; discriminate).
Qed.
Lemma toc_two_kinds : forall f sp e, parse_toc f sp = Err e ->
  e = MalformedOneNoteData \/ e = MalformedOneNoteFileData.
Proof. intros f sp e E. apply parse_toc_kinds in E. cbn in E. intuition auto. Qed.
