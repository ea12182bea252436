(** Why a section or a table of contents cannot be read: the document. *)
From Coq Require Import Lia ZifyBool ZifyNat ZifyN.
From Verif Require Import Base BaseProofs Codec Package PropSet PropIds Store Shapes Props Nodes Doc Notebook
  SpecCodec SpecStore SpecValues SpecNodes SpecKinds KindsProofs NodesProofs NodesProofs2 NodesProofs3 SpecDoc DocProofs DocProofs2
  DocProofs3 SpecCause CauseProofs.

Definition plain (r : role) : Prop := ~ In r [R_item; R_content; R_page_content; R_list].

Section Section_.
  Variable st : store.
  Notation blamed := (blames (fault st)).
  Notation sees := (visits st).

  Lemma need_blames {A} sp i r (k : object -> res A) : sees sp i r ->
    (forall o, get_object sp i = Some o -> blamed (k o)) -> blamed (let! o := need_object i sp in k o).
  Proof.
    intros V F. apply blames_bind.
    - intros e. unfold need_object. destruct (get_object sp i) eqn:E; [discriminate|]. intros [= <-].
      exact (fa_missing st sp i r V E).
    - intros o E. apply F. now apply need_ok.
  Qed.
  Lemma node_blames {A} sp i r o (parse : object -> res A) (R : object -> A -> Prop) :
    sees sp i r -> get_object sp i = Some o -> plain r -> (forall o d, parse o = Ok d <-> R o d) ->
    fits r o = (exists d, R o d) -> only [MalformedOneNoteFileData] (parse o) -> blamed (parse o).
  Proof.
    intros V G P H F K e E. destruct (K e E) as [<-|[]]. apply (fa_object st sp i r o); [exact V|exact G|].
    apply wr_object; [intros I; apply P; cbn in I |- *; tauto| |intros ->; exfalso; apply P; cbn; tauto].
    rewrite F. exact (node_err parse R o _ H E).
  Qed.
  Lemma node_eof_blames {A} sp i r o (parse : object -> res A) (R : object -> A -> Prop) C :
    sees sp i r -> get_object sp i = Some o -> plain r -> (forall o d, parse o = Ok d <-> R o d) ->
    fits r o = (exists d, R o d) -> blames (eof_or C) (parse o) -> (C -> wrong sp r o UnexpectedEof) ->
    blamed (parse o).
  Proof.
    intros V G P H F K W e E. apply (fa_object st sp i r o); [exact V|exact G|].
    destruct (K e E) as [->|(-> & c)]; [|exact (W c)].
    apply wr_object; [intros I; apply P; cbn in I |- *; tauto| |intros ->; exfalso; apply P; cbn; tauto].
    rewrite F. exact (node_err parse R o _ H E).
  Qed.
  Ltac role := intros F; cbn in F; repeat (destruct F as [F|F]; [discriminate F|]); exact F.
  Ltac node V G L K := refine (node_blames _ _ _ _ _ _ V G _ L eq_refl (K _)); role.
  Ltac next V G := apply (vi_next _ _ _ _ _ _ _ V G).
  Ltac known D E L := assert (D := E); apply L in D.

  Lemma tags_blame sp i r o ts : sees sp i r -> get_object sp i = Some o ->
    (forall j, defined_by j ts -> leads sp o r j R_tag) -> blamed (note_tags ts sp).
  Proof.
    intros V G L. unfold note_tags. apply blames_map. intros t I. apply blames_bind; [|intros; apply blames_ok].
    apply blames_opt. intros j E. unfold note_tag_definition.
    assert (W : sees sp j R_tag) by (next V G; apply L; exists t; auto).
    apply (need_blames _ _ _ _ W). intros x X. node W X tag_definition_ok tag_definition_one.
  Qed.
  Lemma list_blame sp i : sees sp i R_list -> blamed (parse_list i sp).
  Proof.
    intros V. apply (need_blames _ _ _ _ V). intros o G.
    apply blames_bind; [|intros; apply blames_ok]. intros e E. destruct (number_list_one _ e E) as [<-|[]].
    apply (fa_object st sp i R_list o); [exact V|exact G|]. apply wr_object.
    - cbn. intros F. repeat (destruct F as [F|F]; [discriminate F|]). exact F.
    - exact (node_err _ _ o _ list_ok E).
    - intros _ S. apply list_panics in S. congruence.
  Qed.
  Lemma file_blame sp i : sees sp i R_file -> blamed (parse_embedded_file i sp).
  Proof.
    intros V. apply (need_blames _ _ _ _ V). intros o G.
    apply blames_bind; [node V G file_node_ok embedded_file_node_one|]. intros d E. known D E file_node_ok.
    assert (W : sees sp (ef_container d) R_file_data) by (next V G; exact (le_file_data sp o d _ D eq_refl)).
    apply (need_blames _ _ _ _ W). intros x X.
    apply blames_bind; [node W X file_container_ok embedded_file_container_one|]. intros b _.
    apply blames_bind; [|intros; apply blames_ok]. apply (tags_blame _ _ _ _ _ V G).
    intros j J. exact (le_file_tag sp o d j D J).
  Qed.
  Lemma image_blame sp i : sees sp i R_image -> blamed (parse_image i sp).
  Proof.
    intros V. apply (need_blames _ _ _ _ V). intros o G.
    apply blames_bind; [node V G image_ok image_node_one|]. intros d E. known D E image_ok.
    assert (W : forall j, im_picture_container d = Some j -> sees sp j R_picture)
      by (intros j J; next V G; exact (le_picture sp o d j D J)).
    apply blames_bind.
    { apply blames_opt. intros j J. specialize (W j J). intros e Ee. unfold need_object in Ee.
      destruct (get_object sp j) eqn:X; [discriminate Ee|]. injection Ee as <-. exact (fa_missing st sp j _ W X). }
    intros co Hco. apply blames_bind.
    { apply blames_opt. intros x ->. destruct (im_picture_container d) as [j|]; [|discriminate Hco].
      specialize (W j eq_refl). cbn in Hco. apply bind_ok in Hco as (y & Hy & [= <-]). apply need_ok in Hy.
      node W Hy picture_ok picture_container_one. }
    intros cd _. apply blames_bind.
    { apply blames_map. intros j J. unfold parse_iframe.
      assert (X : sees sp j R_iframe) by (next V G; exact (le_iframe sp o d j D J)).
      apply (need_blames _ _ _ _ X). intros y Y. node X Y iframe_ok iframe_node_one. }
    intros fs _. apply blames_bind; [|intros; apply blames_ok]. apply (tags_blame _ _ _ _ _ V G).
    intros j J. exact (le_image_tag sp o d j D J).
  Qed.
  Lemma position_none g ds : position g ds = None -> forall x, In x ds -> id_id x <> g.
  Proof.
    induction ds as [|d ds IH]; intros H x; [intros []|]. cbn in H.
    destruct (N.eqb_spec (id_id d) g) as [?|N]; [discriminate H|].
    destruct (position g ds) eqn:P; [discriminate H|]. intros [<-|I]; [exact N|exact (IH eq_refl x I)].
  Qed.
  Lemma stroke_blame sp i sx sy : sees sp i R_stroke -> blamed (parse_ink_stroke i sp sx sy).
  Proof.
    intros V. apply (need_blames _ _ _ _ V). intros o G.
    apply blames_bind; [node V G stroke_ok ink_stroke_node_one|]. intros d E. known D E stroke_ok.
    assert (W : sees sp (ss_properties d) R_pen) by (next V G; exact (le_pen sp o d _ D eq_refl)).
    apply (need_blames _ _ _ _ W). intros x X.
    apply blames_bind; [node W X stroke_properties_ok stroke_properties_one|]. intros p P. apply stroke_properties_ok in P.
    apply blames_bind; [|intros; apply blames_ok]. unfold parse_ink_path.
    assert (B : forall g, In g [0x598a6a8f52c04ba093afaf357411a561; 0xb53f9f7504e04498a7eec30dbb5a9011] ->
      blamed (ok_or MalformedOneNoteData (position g (sp_dimensions p)))).
    { intros g I e Ee. destruct (position g (sp_dimensions p)) eqn:Q; [discriminate Ee|]. injection Ee as <-.
      apply (fa_object st sp i _ o _ V G). apply (wr_dimension sp _ o d p g eq_refl D); [|exact I|exact (position_none _ _ Q)].
      exists x. auto. }
    apply blames_bind; [apply B; cbn; tauto|]. intros ix _.
    apply blames_bind; [apply B; cbn; tauto|]. intros iy _. cbv zeta.
    apply blames_bind; [unfold slice; intros e; destruct (_ <? _); discriminate|]. intros xs _.
    apply blames_bind; [unfold slice; intros e; destruct (_ <? _); discriminate|]. intros ys _. apply blames_ok.
  Qed.
  Lemma drawing_blame sp i sx sy : sees sp i R_drawing -> blamed (parse_ink_data i sp sx sy).
  Proof.
    intros V. apply (need_blames _ _ _ _ V). intros o G.
    apply blames_bind; [node V G ink_node_ok ink_data_node_one|]. intros d E. known D E ink_node_ok.
    apply blames_bind; [|intros; apply blames_ok]. apply blames_map. intros j J. apply stroke_blame.
    next V G. exact (le_stroke sp o d j D J).
  Qed.
  Lemma ink_blame sp i : sees sp i R_ink -> blamed (parse_ink i sp).
  Proof.
    intros V. apply (need_blames _ _ _ _ V). intros o G.
    apply blames_bind; [node V G ink_container_ok ink_container_one|]. intros d E. known D E ink_container_ok.
    destruct (ic_ink_data d) as [j|] eqn:J; [|apply blames_ok].
    apply blames_bind; [|intros [ss b] _; apply blames_ok]. apply drawing_blame.
    next V G. exact (le_drawing sp o d j D J).
  Qed.

  (** Paragraphs. *)
  Lemma combine_at {A B} (l : list A) (m : list B) p : In p (combine l m) ->
    exists k, nth_error l k = Some (fst p) /\ nth_error m k = Some (snd p).
  Proof.
    revert m. induction l as [|a l IH]; intros [|b m]; cbn; try tauto.
    intros [<-|I]; [exists 0%nat; auto|]. destruct (IH m I) as (k & K). exists (S k). exact K.
  Qed.
  Lemma embedded_blame sp i o refs inks : sees sp i R_text -> get_object sp i = Some o ->
    (forall t d, In (Some t, d) inks -> exists run style, run_of sp o run style /\
       sy_is_embedded_object style = true /\ embedded_ink_run run d /\ sy_object_type style = Some t) ->
    forall n k, k <= n ->
    (forall x j, nth_error refs x = Some j -> (x < N.to_nat (n - k) + ink_count inks)%nat -> sees sp j R_drawing) ->
    blamed (embedded_objects sp refs n k inks).
  Proof.
    intros V G. induction inks as [|[[t|] d] inks IH]; intros HI n k Hk HR; cbn [embedded_objects]; [apply blames_ok| |].
    - apply blames_bind; [|intros; apply blames_bind; [|intros; apply blames_ok]].
      2:{ apply IH; [intros; apply HI; now right|lia|]. intros x j Hx Hl. apply (HR x j Hx).
          change (ink_count ((Some t, d) :: inks)) with (ink_count inks). lia. }
      destruct (HI t d (or_introl eq_refl)) as (run & style & HU & HB & HE & HT).
      destruct (N.eqb_spec t ink_end_of_line_blob) as [->|N1]; [apply blames_ok|].
      destruct (N.eqb_spec t ink_space_blob) as [->|N2].
      + apply blames_bind; [|intros; apply blames_ok]. intros e E. unfold parse_ink_space in E.
        apply (fa_object st sp i _ o _ V G).
        assert (X : ei_space_width d = None \/ ei_space_height d = None).
        { destruct (ei_space_width d); [|now left]. destruct (ei_space_height d); [discriminate E|now right]. }
        assert (e = MalformedOneNoteFileData) as ->.
        { destruct (ei_space_width d); [destruct (ei_space_height d); [discriminate E|]|]; cbn in E; congruence. }
        exact (wr_space sp _ o run style d eq_refl HU HB HE HT X).
      + intros e [= <-]. apply (fa_object st sp i _ o _ V G).
        exact (wr_blob sp _ o run style t eq_refl HU HB HT N2 N1).
    - assert (HC : ink_count ((None, d) :: inks) = S (ink_count inks)) by reflexivity. rewrite HC in HR.
      apply blames_bind; [|intros; apply blames_bind; [|intros; apply blames_ok]].
      2:{ apply IH; [intros; apply HI; now right|lia|]. intros x j Hx Hl. apply (HR x j Hx). lia. }
      destruct refs as [|r0 refs]; [apply blames_ok|].
      destruct (nth_error (r0 :: refs) (N.to_nat (n - k))) as [j|] eqn:J; [|intros e E; discriminate E].
      apply blames_bind; [|intros; apply blames_ok]. unfold parse_embedded_ink.
      apply blames_bind; [|intros [ss b] _; apply blames_ok]. apply drawing_blame. apply (HR _ j J). lia.
  Qed.
  Lemma flatten_in {A} (x : A) l : In x (flatten l) -> In (Some x) l.
  Proof. unfold flatten. rewrite in_flat_map. intros ([y|] & I & F); [destruct F as [<-|[]]; exact I|destruct F]. Qed.
  Lemma text_blame sp i : sees sp i R_text -> blamed (parse_rich_text i sp).
  Proof.
    intros V. apply (need_blames _ _ _ _ V). intros o G.
    apply blames_bind; [node V G text_ok rich_text_node_one|]. intros d E. known D E text_ok.
    assert (W : forall j, j = rt_paragraph_style d \/ In j (rt_run_formatting d) -> sees sp j R_style)
      by (intros j J; next V G; exact (le_text_style sp o d j D J)).
    apply (need_blames _ _ _ _ (W _ (or_introl eq_refl))). intros x X.
    apply blames_bind; [node (W _ (or_introl eq_refl)) X style_ok style_one|]. intros pd _.
    apply blames_bind.
    { apply blames_map. intros j J. apply (need_blames _ _ _ _ (W _ (or_intror J))). intros y Y.
      node (W _ (or_intror J)) Y style_ok style_one. }
    intros styles HS. apply (map_ok _ _ _ _ (style_at_ok sp)) in HS.
    apply blames_bind.
    { intros e Ee. assert (K : only [MalformedOneNoteFileData] (dflt [] (text_run_data_parse o))) by kinds.
      destruct (K e Ee) as [<-|[]]. apply (fa_object st sp i _ o _ V G). apply wr_runs; [reflexivity|].
      intros runs H. apply runs_ok in H. congruence. }
    intros runs HD. apply runs_ok in HD.
    assert (HU : forall p, In p (combine runs styles) -> run_of sp o (fst p) (snd p)).
    { intros p I. destruct (combine_at _ _ _ I) as (k & K1 & K2). exists d, runs, styles, k. auto. }
    apply blames_bind.
    { apply blames_map. intros [run style] I. specialize (HU _ I). cbn [fst snd] in HU.
      destruct (sy_math_formatting style) eqn:M; [|apply blames_ok]. intros e Ee.
      apply (fa_object st sp i _ o _ V G).
      assert (Q : (let! d := math_data_parse run in parse_math_object d) = Err e).
      { destruct (math_data_parse run) as [md| | |]; cbn [rbind] in *; try exact Ee; try congruence.
        destruct (parse_math_object md); cbn [rbind] in *; congruence. }
      assert (NM : forall m, ~ math_is run m) by (intros m HM; apply math_is_ok in HM; congruence).
      destruct (math_data_parse run) as [md|x'| |] eqn:Em; cbn [rbind] in Q; try discriminate Q.
      - assert (e = MalformedOneNoteFileData) as ->.
        { assert (K : only [MalformedOneNoteFileData] (parse_math_object md))
            by (apply only_bind; [apply only_ok_or; cbn; tauto|intro; apply only_ok]).
          destruct (K e Q) as [<-|[]]. reflexivity. }
        exact (wr_math sp _ o run style eq_refl HU M NM).
      - injection Q as <-. destruct (math_blames run _ Em) as [->|(-> & C)].
        + exact (wr_math sp _ o run style eq_refl HU M NM).
        + exact (wr_character sp _ o run style eq_refl HU M C). }
    intros ms _. apply blames_bind.
    { apply blames_map. intros [run style] I. specialize (HU _ I). cbn [fst snd] in HU.
      destruct (sy_is_embedded_object style) eqn:M; [|apply blames_ok].
      apply blames_bind; [|intros; apply blames_ok]. intros e Ee.
      destruct (embedded_ink_one run e Ee) as [<-|[]]. apply (fa_object st sp i _ o _ V G).
      apply (wr_embedded sp _ o run style eq_refl HU M). intros y HY. apply embedded_ink_ok in HY. congruence. }
    intros inks HI. apply blames_bind.
    { apply (embedded_blame sp i o); [exact V|exact G| |lia|].
      2:{ intros x' j J L. next V G. apply le_text_drawing. exists d, styles, runs, (flatten inks), x'.
          refine (conj D (conj HS (conj HD (conj _ (conj J _))))); [|exact L].
          apply inks_ok. exists inks. split; [exact HI|reflexivity]. }
      - intros t y I. apply flatten_in in I. apply map_res_ok in HI.
        assert (HQ : exists p, In p (combine runs styles) /\
          (let '(run, style) := p in if sy_is_embedded_object style then
              let! d := embedded_ink_parse run in Ok (Some (sy_object_type style, d)) else Ok None) = Ok (Some (Some t, y))).
        { clear -HI I. induction HI as [|a b l m Hab _ IH]; [destruct I|].
          destruct I as [->|I]; [exists a; split; [now left|exact Hab]|].
          destruct (IH I) as (p & P1 & P2). exists p. split; [now right|exact P2]. }
        destruct HQ as ([run style] & Ip & Hp). specialize (HU _ Ip). cbn [fst snd] in HU.
        destruct (sy_is_embedded_object style) eqn:M; [|discriminate Hp].
        apply bind_ok in Hp as (z & Hz & Eq). apply embedded_ink_ok in Hz. exists run, style.
        assert (sy_object_type style = Some t) by congruence. assert (z = y) as -> by congruence. auto. }
    intros em _. cbv zeta. apply blames_bind; [|intros; apply blames_ok]. apply (tags_blame _ _ _ _ _ V G).
    intros j J. exact (le_text_tag sp o d j D J).
  Qed.

  Lemma kind_blame {A} sp i r o (f : node_kind -> res A) : sees sp i r -> get_object sp i = Some o ->
    In r [R_item; R_content; R_page_content] -> (fits r o -> In (ob_jcid o) known_kinds) ->
    (forall k, ob_jcid o = kind_jcid k -> blamed (f k)) -> blamed (let! k := need_kind o in f k).
  Proof.
    intros V G I F H. apply blames_bind.
    - intros e E. unfold need_kind in E. destruct (kind_of_jcid (ob_jcid o)) eqn:K; [discriminate E|].
      injection E as <-. apply (fa_object st sp i _ o _ V G). apply wr_kind; [exact I|]. intros X. apply F in X.
      apply known_ok in X as (k & X). congruence.
    - intros k E. apply H. now apply need_kind_ok.
  Qed.
  Ltac same V G J := apply (vi_kind _ _ _ _ _ _ V G); cbn; rewrite J; cbn; tauto.

  Lemma outline_blame f : forall sp,
    (forall i, sees sp i R_item -> blamed (parse_outline_item f sp i)) /\
    (forall i, sees sp i R_element -> blamed (parse_outline_element f sp i)) /\
    (forall i, sees sp i R_content -> blamed (parse_content f sp i)).
  Proof.
    induction f as [|f IH]; intros sp.
    { refine (conj _ (conj _ _)); intros i _ e E; discriminate E. }
    destruct (IH sp) as (I1 & I2 & I3). refine (conj _ (conj _ _)); intros i V;
      cbn [parse_outline_item parse_outline_element parse_content];
      apply (need_blames _ _ _ _ V); intros o G.
    - apply (kind_blame _ _ _ _ _ V G); [cbn; tauto| |].
      { cbn. intros [<-|[<-|[]]]; cbn; tauto. }
      intros k J.
      assert (B : ~ In (ob_jcid o) [0x00060019; 0x0006000D] -> blamed (@Err outline_item MalformedOneNoteData)).
      { intros N e [= <-]. apply (fa_object st sp i _ o _ V G). apply wr_kind; [cbn; tauto|exact N]. }
      destruct k; try (apply B; rewrite J; cbn; intros [F|[F|F]]; [discriminate F|discriminate F|exact F]).
      + assert (W : sees sp i R_element) by same V G J. apply blames_bind; [exact (I2 i W)|]. intros; apply blames_ok.
      + assert (W : sees sp i R_group) by same V G J. apply (need_blames _ _ _ _ W). intros o' G'.
        apply blames_bind; [node W G' group_ok outline_group_node_one|]. intros d E. known D E group_ok.
        apply blames_bind; [|intros; apply blames_ok]. apply blames_map. intros j Hj. apply I1.
        next W G'. exact (le_group_item sp o' d j D Hj).
    - apply blames_bind; [node V G element_ok outline_element_node_one|]. intros d E. known D E element_ok.
      apply blames_bind; [apply blames_map; intros j Hj; apply I1; next V G; exact (le_element_item sp o d j D Hj)|]. intros ? _.
      apply blames_bind; [apply blames_map; intros j Hj; apply I3; next V G; exact (le_element_content sp o d j D Hj)|]. intros ? _.
      apply blames_bind; [apply blames_map; intros j Hj; apply list_blame; next V G; exact (le_element_list sp o d j D Hj)|].
      intros ? _. apply blames_ok.
    - apply (kind_blame _ _ _ _ _ V G); [cbn; tauto|intros F; exact F|]. intros k J.
      destruct k; try apply blames_ok.
      + apply blames_bind; [apply file_blame; same V G J|intros; apply blames_ok].
      + apply blames_bind; [apply image_blame; same V G J|intros; apply blames_ok].
      + apply blames_bind; [apply text_blame; same V G J|intros; apply blames_ok].
      + apply blames_bind; [|intros; apply blames_ok]. assert (W : sees sp i R_table) by same V G J.
        unfold parse_table. apply (need_blames _ _ _ _ W). intros o' G'.
        apply blames_bind; [node W G' table_ok table_node_one|]. intros d E. known D E table_ok.
        apply blames_bind.
        { apply blames_map. intros j Hj.
          assert (X : sees sp j R_row) by (next W G'; exact (le_row sp o' d j D Hj)).
          unfold parse_row. apply (need_blames _ _ _ _ X). intros y Y.
          apply blames_bind; [node X Y row_ok table_row_node_one|]. intros d2 E2. known D2 E2 row_ok.
          apply blames_bind; [|intros; apply blames_ok]. apply blames_map. intros c Hc.
          assert (Z : sees sp c R_cell) by (next X Y; exact (le_cell sp y d2 c D2 Hc)).
          unfold parse_cell. apply (need_blames _ _ _ _ Z). intros z HZ. apply blames_bind.
          { apply (node_eof_blames _ _ _ _ _ _ _ Z HZ ltac:(role) cell_ok eq_refl (cell_node_blames z)).
            intros C. apply wr_indents; [cbn; tauto|exact C]. }
          intros d3 E3. known D3 E3 cell_ok. apply blames_bind; [|intros; apply blames_ok].
          apply blames_map. intros q Hq. apply I2. next Z HZ. exact (le_cell_element sp z d3 q D3 Hq). }
        intros ? _. apply blames_bind; [|intros; apply blames_ok]. apply (tags_blame _ _ _ _ _ W G').
        intros j Hj. exact (le_table_tag sp o' d j D Hj).
      + apply blames_bind; [apply ink_blame; same V G J|intros; apply blames_ok].
  Qed.
  Lemma whole_outline_blame f sp i : sees sp i R_outline -> blamed (parse_outline f sp i).
  Proof.
    intros V. apply (need_blames _ _ _ _ V). intros o G. apply blames_bind.
    { apply (node_eof_blames _ _ _ _ _ _ _ V G ltac:(role) outline_ok eq_refl (outline_node_blames o)).
      intros C. apply wr_indents; [cbn; tauto|exact C]. }
    intros d E. known D E outline_ok. apply blames_bind; [|intros; apply blames_ok].
    apply blames_map. intros j Hj. apply outline_blame. next V G. exact (le_outline_item sp o d j D Hj).
  Qed.
  Lemma page_content_blame f sp i : sees sp i R_page_content -> blamed (parse_page_content f sp i).
  Proof.
    intros V. apply (need_blames _ _ _ _ V). intros o G.
    apply (kind_blame _ _ _ _ _ V G); [cbn; tauto|intros F; exact F|]. intros k J.
    destruct k; try apply blames_ok.
    - apply blames_bind; [apply file_blame; same V G J|intros; apply blames_ok].
    - apply blames_bind; [apply image_blame; same V G J|intros; apply blames_ok].
    - apply blames_bind; [apply whole_outline_blame; same V G J|intros; apply blames_ok].
    - apply blames_bind; [apply ink_blame; same V G J|intros; apply blames_ok].
  Qed.
  Lemma title_blame f sp i : sees sp i R_title -> blamed (parse_title f sp i).
  Proof.
    intros V. apply (need_blames _ _ _ _ V). intros o G.
    apply blames_bind; [node V G title_ok title_node_one|]. intros d E. known D E title_ok.
    apply blames_bind; [|intros; apply blames_ok]. apply blames_map. intros j Hj. apply whole_outline_blame.
    next V G. exact (le_title_outline sp o d j D Hj).
  Qed.
  Lemma root_blames {A} (x : option exguid) (k : exguid -> res A) :
    (x = None -> fault st MalformedOneNoteData) -> (forall i, x = Some i -> blamed (k i)) ->
    blamed (let! i := ok_or MalformedOneNoteData x in k i).
  Proof.
    intros N F. apply blames_bind.
    - intros e E. destruct x; [discriminate E|]. injection E as <-. exact (N eq_refl).
    - intros i E. apply F. destruct x; [injection E as ->; reflexivity|discriminate E].
  Qed.
  Lemma page_blame f i o d c sp : sees (st_data_root st) i R_series -> get_object (st_data_root st) i = Some o ->
    series_node o d -> In c (pn_page_spaces d) -> object_space st c = Some sp -> blamed (parse_page f sp).
  Proof.
    intros V G D I S. assert (P : page_at st c) by (exists i, o, d; auto).
    unfold parse_page. apply blames_bind.
    { unfold page_metadata. apply root_blames; [intros N; apply (fa_page_root st c sp P S); now left|].
      intros j J. assert (W : sees sp j R_page_meta) by exact (vi_page_meta st i o d c sp j V G D I S J).
      apply (need_blames _ _ _ _ W). intros x X.
      apply (node_eof_blames _ _ _ _ _ _ _ W X ltac:(role) page_meta_ok eq_refl (page_meta_blames x)).
      intros C. apply wr_guid; [cbn; tauto|exact C]. }
    intros m _. unfold page_manifest.
    assert (HB : forall j, content_root sp = Some j -> sees sp j R_manifest)
      by (intros j J; exact (vi_manifest st i o d c sp j V G D I S J)).
    apply blames_bind.
    { apply root_blames; [intros N; apply (fa_page_root st c sp P S); now right|].
      intros j J. specialize (HB j J). apply (need_blames _ _ _ _ HB). intros x X.
      node HB X manifest_ok page_manifest_one. }
    intros pid Hp. apply bind_ok in Hp as (j & J & Hp). destruct (content_root sp) as [j'|]; [|discriminate J].
    injection J as ->. specialize (HB j eq_refl). apply bind_ok in Hp as (x & X & Hp). apply need_ok in X.
    apply manifest_ok in Hp. assert (W : sees sp pid R_page) by (next HB X; exact (le_page sp x pid Hp)).
    unfold page_node. apply blames_bind.
    { apply (need_blames _ _ _ _ W). intros y Y. node W Y page_ok page_node_one. }
    intros pd E. apply bind_ok in E as (y & Y & E). apply need_ok in Y. apply page_ok in E.
    apply blames_bind.
    { apply blames_opt. intros q Q. apply title_blame. next W Y. exact (le_title sp y pd q E Q). }
    intros t _. apply blames_bind; [|intros; apply blames_ok]. apply blames_map. intros q Q.
    apply page_content_blame. next W Y. exact (le_page_content sp y pd q E Q).
  Qed.
  Lemma series_blame f i : sees (st_data_root st) i R_series -> blamed (parse_page_series f st i).
  Proof.
    intros V. apply (need_blames _ _ _ _ V). intros o G. apply blames_bind.
    { apply (node_eof_blames _ _ _ _ _ _ _ V G ltac:(role) series_ok eq_refl (series_node_blames o)).
      intros C. apply wr_guid; [cbn; tauto|exact C]. }
    intros d E. known D E series_ok. apply blames_map. intros c I. apply blames_bind.
    - intros e Ee. destruct (object_space st c) eqn:S; [discriminate Ee|]. injection Ee as <-.
      apply (fa_space st c); [exists i, o, d; auto|exact S].
    - intros sp S. destruct (object_space st c) as [sp'|] eqn:S'; [|discriminate S]. injection S as ->.
      exact (page_blame f i o d c sp V G D I S').
  Qed.
  Lemma section_blame f name e : parse_section f st name = Err e -> fault st e.
  Proof.
    revert e. change (blamed (parse_section f st name)). unfold parse_section. apply blames_bind.
    { unfold section_metadata. apply root_blames; [intros N; apply fa_section_root; now left|].
      intros j J. assert (W : sees (st_data_root st) j R_section_meta) by exact (vi_meta st j J).
      apply (need_blames _ _ _ _ W). intros x X. node W X section_meta_ok section_metadata_one. }
    intros m _. unfold section_content. apply blames_bind.
    { apply root_blames; [intros N; apply fa_section_root; now right|].
      intros j J. assert (W : sees (st_data_root st) j R_section) by exact (vi_section st j J).
      apply (need_blames _ _ _ _ W). intros x X.
      apply (node_eof_blames _ _ _ _ _ _ _ W X ltac:(role) section_node_ok eq_refl (section_node_blames x)).
      intros C. apply wr_guid; [cbn; tauto|exact C]. }
    intros d E. apply bind_ok in E as (j & J & E). destruct (content_root (st_data_root st)) as [j'|] eqn:R; [|discriminate J].
    injection J as ->. apply bind_ok in E as (x & X & E). apply need_ok in X. apply section_node_ok in E.
    cbv zeta. apply blames_bind; [|intros; apply blames_ok]. apply blames_map. intros q Q. apply series_blame.
    apply (vi_next _ _ _ _ _ _ _ (vi_section st j R) X). exact (le_series _ x d q E Q).
  Qed.
End Section_.

Lemma toc_entry_blame sp f : forall i, toc_visits sp i -> blames (toc_fault sp) (parse_toc_entry f sp i).
Proof.
  induction f as [|f IH]; intros i V; [intros e E; discriminate E|]. cbn [parse_toc_entry]. apply blames_bind.
  { intros e E. unfold need_object in E. destruct (get_object sp i) eqn:G; [discriminate E|]. injection E as <-.
    exact (tf_missing sp i V G). }
  intros o G. apply need_ok in G. apply blames_bind.
  { intros e E. destruct (toc_node_one o e E) as [<-|[]]. apply (tf_object sp i o V G). intros d D.
    apply toc_ok in D. congruence. }
  intros d D. apply toc_ok in D. destruct (tc_filename d) as [n|] eqn:F.
  - apply blames_bind; [|intros; apply blames_ok]. intros e E. destruct (tc_ordering_id d) eqn:O; [discriminate E|].
    injection E as <-. exact (tf_order sp i o d n V G D F O).
  - apply blames_bind; [|intros; apply blames_ok]. apply blames_map. intros j J. apply IH.
    exact (tv_child sp i o d j V G D F J).
Qed.
Lemma toc_blame sp f e : parse_toc f sp = Err e -> toc_fault sp e.
Proof.
  revert e. change (blames (toc_fault sp) (parse_toc f sp)). unfold parse_toc. apply blames_bind.
  { intros e E. destruct (content_root sp) eqn:R; [discriminate E|]. injection E as <-. exact (tf_root sp R). }
  intros i E. destruct (content_root sp) as [j|] eqn:R; [|discriminate E]. injection E as ->.
  apply blames_bind; [|intros; apply blames_ok]. exact (toc_entry_blame sp f i (tv_root sp i R)).
Qed.
