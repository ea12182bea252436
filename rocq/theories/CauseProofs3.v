(** A section with a fault cannot be read. *)
From Coq Require Import Lia ZifyBool ZifyNat ZifyN.
From Verif Require Import Base BaseProofs Codec Package PropSet PropIds Store Shapes Props Nodes Doc Notebook
  SpecCodec SpecStore SpecValues SpecNodes SpecKinds NodesProofs NodesProofs2 SpecDoc DocProofs DocProofs2
  DocProofs3 SpecNotebook SpecCause CauseProofs CauseProofs2.

Lemma node_fun {A} (parse : object -> res A) (R : object -> A -> Prop) :
  (forall o d, parse o = Ok d <-> R o d) -> forall o d d', R o d -> R o d' -> d = d'.
Proof. intros H o d d' X Y. apply H in X, Y. congruence. Qed.
Lemma all2_in {A B} (R : A -> B -> Prop) l m a : Forall2 R l m -> In a l -> exists b, R a b.
Proof. induction 1 as [|x y l m Hxy _ IH]; [intros []|]. intros [->|I]; [eauto|exact (IH I)]. Qed.
Lemma all2_at {A B} (R : A -> B -> Prop) l m k a : Forall2 R l m -> nth_error l k = Some a -> exists b, nth_error m k = Some b /\ R a b.
Proof.
  intros H. revert k. induction H as [|x y l m Hxy _ IH]; intros [|k]; cbn; try discriminate.
  - intros [= ->]. eauto.
  - apply IH.
Qed.

Section Section_.
  Variable st : store.

  Definition page_good (sp : space) (d : page_data) : Prop :=
    (forall j, pd_title d = Some j -> exists t, title_is sp j t) /\
    forall j, In j (pd_content d) -> exists x, page_content_is sp j x.
  (** What a readable section says about the object it looks at as [r]. *)
  Definition good_role (sp : space) (i : exguid) (r : role) : Prop :=
    match r with
    | R_section_meta => found sp i (fun o => exists d, section_meta o d)
    | R_section => sp = st_data_root st /\ found sp i (fun o => exists d, section_node o d /\
                     forall j, In j (sn_page_series d) -> exists ps, series_is st j ps)
    | R_series => sp = st_data_root st /\ exists ps, series_is st i ps
    | R_page_meta => found sp i (fun o => exists d, page_meta o d)
    | R_manifest => found sp i (fun o => exists pid, manifest_node o pid /\
                      found sp pid (fun po => exists d, page_object po d /\ page_good sp d))
    | R_page => found sp i (fun o => exists d, page_object o d /\ page_good sp d)
    | R_title => exists x, title_is sp i x
    | R_page_content => exists x, page_content_is sp i x
    | R_outline => exists x, outline_is sp i x
    | R_item => exists x, item_is sp i x
    | R_group => found sp i (fun o => exists d, group_object o d /\ forall j, In j (gr_children d) -> exists x, item_is sp j x)
    | R_element => exists x, element_is sp i x
    | R_content => exists x, content_is sp i x
    | R_list => exists x, list_is sp i x
    | R_text => exists x, text_is sp i x
    | R_style => found sp i (fun o => exists d, style_object o d)
    | R_tag => found sp i (fun o => exists d, tag_definition_object o d)
    | R_image => exists x, image_is sp i x
    | R_picture => found sp i (fun o => exists d, picture_object o d)
    | R_iframe => found sp i (fun o => exists d, iframe_object o d)
    | R_file => exists x, file_is sp i x
    | R_file_data => found sp i (fun o => exists d, file_container o d)
    | R_ink => exists x, ink_is sp i x
    | R_drawing => exists sx sy ss b, drawing_is sp sx sy i ss b
    | R_stroke => exists sx sy s, stroke_is sp sx sy i s
    | R_pen => found sp i (fun o => exists d, stroke_properties o d)
    | R_table => exists x, table_is sp i x
    | R_row => exists x, row_is sp i x
    | R_cell => exists x, cell_is sp i x
    end.

  Lemma found_at {P : object -> Prop} sp i o : found sp i P -> get_object sp i = Some o -> P o.
  Proof. intros (o' & G & H) G'. congruence. Qed.
  Ltac same L := match type of L with forall o d, _ = Ok d <-> ?R o d =>
    match goal with X : R ?o ?a, Y : R ?o ?b |- _ => pose proof (node_fun _ _ L _ _ _ X Y); subst b end end.

  Lemma tag_good sp l ts i : Forall2 (tag_is sp) l ts -> defined_by i l -> found sp i (fun o => exists d, tag_definition_object o d).
  Proof.
    intros H (t & I & E). destruct (all2_in _ _ _ _ H I) as (n & _ & _ & B). rewrite E in B.
    destruct (nt_definition n) as [x|]; [|destruct B]. destruct B as (o & G & D). exists o. eauto.
  Qed.
  Lemma embeds_drawn sp refs k inks out : embeds sp refs k inks out -> forall n i,
    nth_error refs n = Some i -> (k <= n < k + ink_count inks)%nat ->
    exists ss b, drawing_is sp None None i ss b.
  Proof.
    induction 1 as [k|k d r out _ IH|k d h w r out _ _ _ IH|k d id ss bb r out Hn Hd _ IH|k d r out Hr _ IH];
      intros n i Hi L.
    - cbn in L. lia.
    - exact (IH n i Hi L).
    - exact (IH n i Hi L).
    - change (ink_count ((None, d) :: r)) with (S (ink_count r)) in L.
      destruct (Nat.eq_dec n k) as [->|N].
      + assert (i = id) as -> by congruence. eauto.
      + apply (IH n i Hi). lia.
    - subst refs. destruct n; discriminate Hi.
  Qed.
  Lemma selects_fun {A B} (keep : A -> bool) (R : A -> B -> Prop) :
    (forall a x y, R a x -> R a y -> x = y) -> forall l m m', selects keep R l m -> selects keep R l m' -> m = m'.
  Proof.
    intros F l m m' H. revert m'. induction H as [|a l out K H IH|a l b out K Hr H IH]; intros m' H'.
    - inversion H'. reflexivity.
    - inversion H' as [|a' l' out' K' H2|a' l' b' out' K' Hr' H2]; subst; [exact (IH _ H2)|congruence].
    - inversion H' as [|a' l' out' K' H2|a' l' b' out' K' Hr' H2]; subst; [congruence|]. f_equal; [exact (F _ _ _ Hr Hr')|exact (IH _ H2)].
  Qed.
  Lemma ink_run_fun (a : object * style_data) (x y : option N * embedded_ink_data) :
    fst x = sy_object_type (snd a) /\ embedded_ink_run (fst a) (snd x) ->
    fst y = sy_object_type (snd a) /\ embedded_ink_run (fst a) (snd y) -> x = y.
  Proof.
    destruct x as [t u], y as [t' u']. cbn. intros (-> & X) (-> & Y). f_equal.
    exact (node_fun _ _ embedded_ink_ok _ _ _ X Y).
  Qed.
  Lemma styles_fun sp l a b : Forall2 (fun sid sd => found sp sid (fun so => style_object so sd)) l a ->
    Forall2 (fun sid sd => found sp sid (fun so => style_object so sd)) l b -> a = b.
  Proof.
    intros X. revert b. induction X as [|s d l a Hs _ IH]; intros b Y; inversion Y as [|s' d' l' b' Hs' H']; subst; [reflexivity|].
    f_equal; [|exact (IH _ H')]. destruct Hs as (o & G & R). pose proof (found_at _ _ _ Hs' G) as R'.
    exact (node_fun _ _ style_ok _ _ _ R R').
  Qed.
  Lemma runs_fun o a b : run_data o a -> run_data o b -> a = b.
  Proof. intros X Y. apply runs_ok in X, Y. congruence. Qed.

  Lemma leads_good sp i r o j r' : good_role sp i r -> get_object sp i = Some o -> leads sp o r j r' -> good_role sp j r'.
  Proof.
    intros H G L.
    destruct L as [d j D I|j D|d j D E|d j D I|d j D I|d j D I|d j D I|d j D I|d j D I|d j D I|d j D I|j D|d j D I
      |d j D E|d j D I|d j D I|d j D E|d j D I|d j D E|d j D I|d j D E|d j D I|d j D I|d j D I|d j D I]; cbn in H |- *.
    - destruct H as (E & H). pose proof (found_at _ _ _ H G) as (d' & D' & F). same section_node_ok. split; [exact E|exact (F j I)].
    - pose proof (found_at _ _ _ H G) as (p & D' & F). same manifest_ok. exact F.
    - pose proof (found_at _ _ _ H G) as (d' & D' & F). same page_ok. exact (proj1 F j E).
    - pose proof (found_at _ _ _ H G) as (d' & D' & F). same page_ok. exact (proj2 F j I).
    - destruct H as (x & H). pose proof (found_at _ _ _ H G) as (d' & D' & _ & _ & _ & _ & F). same title_ok.
      destruct (all2_in _ _ _ _ F I) as (y & Y). eauto.
    - destruct H as (x & H). pose proof (found_at _ _ _ H G) as (d' & D' & F). same outline_ok.
      do 12 destruct F as (_ & F). destruct (all2_in _ _ _ _ F I) as (y & Y). eauto.
    - pose proof (found_at _ _ _ H G) as (d' & D' & F). same group_ok. exact (F j I).
    - destruct H as (x & H). destruct H as [i' o' d' cs ls s' l' is G' D' _ _ F1 F2 F3].
      assert (o' = o) as -> by congruence. same element_ok. destruct (all2_in _ _ _ _ F3 I) as (y & Y). eauto.
    - destruct H as (x & H). destruct H as [i' o' d' cs ls s' l' is G' D' _ _ F1 F2 F3].
      assert (o' = o) as -> by congruence. same element_ok. destruct (all2_in _ _ _ _ F1 I) as (y & Y). eauto.
    - destruct H as (x & H). destruct H as [i' o' d' cs ls s' l' is G' D' _ _ F1 F2 F3].
      assert (o' = o) as -> by congruence. same element_ok. destruct (all2_in _ _ _ _ F2 I) as (y & Y). eauto.
    - destruct H as (x & H). pose proof (found_at _ _ _ H G) as (d' & pd & styles & runs & inks & D' & P & _ & S & _).
      same text_ok. destruct I as [->|I].
      + destruct P as (po & Gp & Q). exists po. eauto.
      + destruct (all2_in _ _ _ _ S I) as (y & po & Gp & Q). exists po. eauto.
    - destruct H as (x & H). pose proof (found_at _ _ _ H G) as (d' & pd & styles & runs & inks & D' & P & _ & S & _ & U & _ & K & M & _).
      destruct D as (d & styles' & runs' & inks' & k & D & S' & U' & K' & N & L). same text_ok.
      pose proof (styles_fun _ _ _ _ S S'). subst styles'. pose proof (runs_fun _ _ _ U U'). subst runs'.
      pose proof (selects_fun _ _ ink_run_fun _ _ _ K K'). subst inks'.
      destruct (embeds_drawn _ _ _ _ _ M k j N) as (ss & b & B); [lia|]. exists None, None, ss, b. exact B.
    - destruct H as (x & H). pose proof (found_at _ _ _ H G) as (d' & pd & styles & runs & inks & D' & F).
      same text_ok. do 16 destruct F as (_ & F). exact (tag_good _ _ _ _ F I).
    - destruct H as (x & H). pose proof (found_at _ _ _ H G) as (d' & D' & F & _). same image_ok. rewrite E in F.
      destruct F as (co & Gc & p & P & _). exists co. eauto.
    - destruct H as (x & H). pose proof (found_at _ _ _ H G) as (d' & D' & F). same image_ok.
      do 17 destruct F as (_ & F). destruct (all2_in _ _ _ _ F I) as (y & po & Gp & Q). exists po. eauto.
    - destruct H as (x & H). pose proof (found_at _ _ _ H G) as (d' & D' & F). same image_ok.
      do 16 destruct F as (_ & F). destruct F as (F & _). exact (tag_good _ _ _ _ F I).
    - destruct H as (x & H). pose proof (found_at _ _ _ H G) as (d' & D' & _ & _ & _ & _ & _ & _ & (c & Gc & F) & _). same file_node_ok.
      subst j. exists c. eauto.
    - destruct H as (x & H). pose proof (found_at _ _ _ H G) as (d' & D' & _ & _ & _ & _ & _ & _ & _ & F). same file_node_ok.
      exact (tag_good _ _ _ _ F I).
    - destruct H as (x & H). pose proof (found_at _ _ _ H G) as (d' & D' & _ & _ & F). same ink_container_ok. rewrite E in F. eauto.
    - destruct H as (sx & sy & ss & b & H). pose proof (found_at _ _ _ H G) as (d' & D' & F & _). same ink_node_ok.
      destruct (all2_in _ _ _ _ F I) as (y & Y). eauto.
    - destruct H as (sx & sy & s & H). pose proof (found_at _ _ _ H G) as (d' & D' & po & Gp & p & P & _). same stroke_ok.
      subst j. exists po. eauto.
    - destruct H as (x & H). destruct H as [i' o' d' rows cols cs lk ws bs ap aself tgs G' D' _ _ _ _ _ _ _ F1 F2].
      assert (o' = o) as -> by congruence. same table_ok. destruct (all2_in _ _ _ _ F1 I) as (y & Y). eauto.
    - destruct H as (x & H). destruct H as [i' o' d' rows cols cs lk ws bs ap aself tgs G' D' _ _ _ _ _ _ _ F1 F2].
      assert (o' = o) as -> by congruence. same table_ok. exact (tag_good _ _ _ _ F2 I).
    - destruct H as (x & H). destruct H as [i' o' d' cells G' D' F].
      assert (o' = o) as -> by congruence. same row_ok. destruct (all2_in _ _ _ _ F I) as (y & Y). eauto.
    - destruct H as (x & H). destruct H as [i' o' d' cs co w ind G' D' _ _ _ F].
      assert (o' = o) as -> by congruence. same cell_ok. destruct (all2_in _ _ _ _ F I) as (y & Y). eauto.
  Qed.

  (** Kinds. *)
  Lemma jcid_of sp i o P n : found sp i P -> get_object sp i = Some o -> (forall o, P o -> ob_jcid o = n) -> ob_jcid o = n.
  Proof. intros (o' & G & H) G' F. assert (o' = o) as -> by congruence. exact (F o H). Qed.
  Lemma text_jcid sp i x o : text_is sp i x -> get_object sp i = Some o -> ob_jcid o = 0x0006000E.
  Proof. intros H G. apply (jcid_of _ _ _ _ _ H G). intros o' (d & pd & ss & rs & is & (J & _) & _). exact J. Qed.
  Lemma image_jcid sp i x o : image_is sp i x -> get_object sp i = Some o -> ob_jcid o = 0x00060011.
  Proof. intros H G. apply (jcid_of _ _ _ _ _ H G). intros o' (d & (J & _) & _). exact J. Qed.
  Lemma file_jcid sp i x o : file_is sp i x -> get_object sp i = Some o -> ob_jcid o = 0x00060035.
  Proof. intros H G. apply (jcid_of _ _ _ _ _ H G). intros o' (d & (J & _) & _). exact J. Qed.
  Lemma ink_jcid sp i x o : ink_is sp i x -> get_object sp i = Some o -> ob_jcid o = 0x00060014.
  Proof. intros H G. apply (jcid_of _ _ _ _ _ H G). intros o' (d & (J & _) & _). exact J. Qed.
  Lemma outline_jcid sp i x o : outline_is sp i x -> get_object sp i = Some o -> ob_jcid o = 0x0006000C.
  Proof. intros H G. apply (jcid_of _ _ _ _ _ H G). intros o' (d & (J & _) & _). exact J. Qed.
  Lemma table_jcid sp i x o : table_is sp i x -> get_object sp i = Some o -> ob_jcid o = 0x00060022.
  Proof. intros H G. destruct H as [i' o' d' rows cols cs lk ws bs ap aself tgs G' (J & _)]. congruence. Qed.
  Lemma element_jcid sp i x o : element_is sp i x -> get_object sp i = Some o -> ob_jcid o = 0x0006000D.
  Proof. intros H G. destruct H as [i' o' d' cs ls s' l' is G' (J & _)]. congruence. Qed.

  Lemma content_cases sp i x o : content_is sp i x -> get_object sp i = Some o ->
    (ob_jcid o = 0x0006000E /\ exists y, text_is sp i y) \/ (ob_jcid o = 0x00060011 /\ exists y, image_is sp i y) \/
    (ob_jcid o = 0x00060035 /\ exists y, file_is sp i y) \/ (ob_jcid o = 0x00060014 /\ exists y, ink_is sp i y) \/
    (ob_jcid o = 0x00060022 /\ exists y, table_is sp i y) \/
    (In (ob_jcid o) known_kinds /\ ~ In (ob_jcid o) [0x0006000E; 0x00060011; 0x00060035; 0x00060014; 0x00060022]).
  Proof.
    intros H G. destruct H as [i y H|i y H|i y H|i y H|i H|i y H].
    - left. split; [exact (text_jcid _ _ _ _ H G)|eauto].
    - right; left. split; [exact (image_jcid _ _ _ _ H G)|eauto].
    - do 2 right; left. split; [exact (file_jcid _ _ _ _ H G)|eauto].
    - do 3 right; left. split; [exact (ink_jcid _ _ _ _ H G)|eauto].
    - do 5 right. exact (found_at _ _ _ H G).
    - do 4 right; left. split; [exact (table_jcid _ _ _ _ H G)|eauto].
  Qed.
  Lemma page_content_cases sp i x o : page_content_is sp i x -> get_object sp i = Some o ->
    (ob_jcid o = 0x0006000C /\ exists y, outline_is sp i y) \/ (ob_jcid o = 0x00060011 /\ exists y, image_is sp i y) \/
    (ob_jcid o = 0x00060035 /\ exists y, file_is sp i y) \/ (ob_jcid o = 0x00060014 /\ exists y, ink_is sp i y) \/
    (In (ob_jcid o) known_kinds /\ ~ In (ob_jcid o) [0x0006000C; 0x00060011; 0x00060035; 0x00060014]).
  Proof.
    intros H G. destruct H as [i y H|i y H|i y H|i y H|i H].
    - left. split; [exact (outline_jcid _ _ _ _ H G)|eauto].
    - right; left. split; [exact (image_jcid _ _ _ _ H G)|eauto].
    - do 2 right; left. split; [exact (file_jcid _ _ _ _ H G)|eauto].
    - do 3 right; left. split; [exact (ink_jcid _ _ _ _ H G)|eauto].
    - do 4 right. exact (found_at _ _ _ H G).
  Qed.
  Lemma item_cases sp i x o : item_is sp i x -> get_object sp i = Some o ->
    (ob_jcid o = 0x00060019 /\ exists d, group_object o d /\ forall j, In j (gr_children d) -> exists x, item_is sp j x) \/
    (ob_jcid o = 0x0006000D /\ exists e, element_is sp i e).
  Proof.
    intros H G. destruct H as [i o' d lv is G' D _ F|i e H].
    - left. assert (o' = o) as -> by congruence. split; [exact (proj1 D)|]. exists d. split; [exact D|].
      intros j I. destruct (all2_in _ _ _ _ F I) as (y & Y). eauto.
    - right. split; [exact (element_jcid _ _ _ _ H G)|eauto].
  Qed.

  Lemma kind_good sp i r o r' : good_role sp i r -> get_object sp i = Some o -> kind_role r (ob_jcid o) r' -> good_role sp i r'.
  Proof.
    intros H G K. destruct r; cbn in K; try (exfalso; exact K); cbn in H; destruct H as (x & H).
    - apply (page_content_cases _ _ _ _ H) in G as C.
      destruct C as [(J & C)|[(J & C)|[(J & C)|[(J & C)|(_ & C)]]]];
        repeat (destruct K as [K|K]; [injection K as K1 K2; subst r'; cbn; first [exact C|congruence|exfalso; apply C; rewrite <- K1; cbn; tauto]|]); destruct K.
    - apply (item_cases _ _ _ _ H) in G as C.
      destruct C as [(J & C)|(J & C)];
        repeat (destruct K as [K|K]; [injection K as K1 K2; subst r'; cbn; first [exact C|exists o; split; [exact G|exact C]|congruence]|]); destruct K.
    - apply (content_cases _ _ _ _ H) in G as C.
      destruct C as [(J & C)|[(J & C)|[(J & C)|[(J & C)|[(J & C)|(_ & C)]]]]];
        repeat (destruct K as [K|K]; [injection K as K1 K2; subst r'; cbn; first [exact C|congruence|exfalso; apply C; rewrite <- K1; cbn; tauto]|]); destruct K.
  Qed.

  Lemma page_is_good i o d c : good_role (st_data_root st) i R_series -> get_object (st_data_root st) i = Some o ->
    series_node o d -> In c (pn_page_spaces d) -> exists sp', object_space st c = Some sp' /\ exists p, page_is sp' p.
  Proof.
    intros (_ & ps & H) G D I. pose proof (found_at _ _ _ H G) as (d' & D' & F). same series_ok.
    destruct (all2_in _ _ _ _ F I) as (p & sp' & S & P). eauto.
  Qed.
  Lemma all_good name s sp i r : section_is st name s -> visits st sp i r -> good_role sp i r.
  Proof.
    intros (mid & m & cid & d & M & MG & C & CG & _ & _ & F) V. induction V as
      [j J|j J|i o d' c sp j _ IH G D I S J|i o d' c sp j _ IH G D I S J|sp i o r j r' _ IH G L|sp i o r r' _ IH G K].
    - cbn. assert (j = mid) as -> by congruence. destruct MG as (o & G & X). exists o. eauto.
    - cbn. assert (j = cid) as -> by congruence. split; [reflexivity|]. destruct CG as (o & G & X). exists o. split; [exact G|].
      exists d. split; [exact X|]. intros q Q. exact (all2_in _ _ _ _ F Q).
    - destruct (page_is_good _ _ _ _ IH G D I) as (sp' & S' & p & P). assert (sp' = sp) as -> by congruence.
      destruct P as (mi & pm & ci & pi & pd & M' & (o' & G' & X) & _). cbn. assert (j = mi) as -> by congruence. exists o'. eauto.
    - destruct (page_is_good _ _ _ _ IH G D I) as (sp' & S' & p & P). assert (sp' = sp) as -> by congruence.
      destruct P as (mi & pm & ci & pi & pd & _ & _ & C' & (o' & G' & X) & (po & Gp & Y) & _ & _ & _ & T & L). cbn.
      assert (j = ci) as -> by congruence. exists o'. split; [exact G'|]. exists pi. split; [exact X|]. exists po. split; [exact Gp|].
      exists pd. split; [exact Y|]. split.
      + intros q Q. rewrite Q in T. destruct (pg_title p) as [t|]; [|destruct T]. exists t. exact T.
      + intros q Q. exact (all2_in _ _ _ _ L Q).
    - exact (leads_good _ _ _ _ _ _ IH G L).
    - exact (kind_good _ _ _ _ _ IH G K).
  Qed.

  Lemma good_there sp i r : good_role sp i r -> exists o, get_object sp i = Some o.
  Proof.
    destruct r; cbn; try (intros (o & G & _); eauto; fail); try (intros (x & o & G & _); eauto; fail).
    - intros (-> & ps & o & G & _). eauto.
    - intros (x & H). destruct H as [i y (o & G & _)|i y (o & G & _)|i y (o & G & _)|i y (o & G & _)|i (o & G & _)]; eauto.
    - intros (x & [i' o d lv is G _ _ _|i' e H]); [eauto|]. destruct H. eauto.
    - intros (x & H). destruct H. eauto.
    - intros (x & H).
      destruct H as [i y (o & G & _)|i y (o & G & _)|i y (o & G & _)|i y (o & G & _)|i (o & G & _)|i y H]; eauto. destruct H. eauto.
    - intros (sx & sy & ss & b & o & G & _). eauto.
    - intros (sx & sy & s & o & G & _). eauto.
    - intros (x & H). destruct H. eauto.
    - intros (x & H). destruct H. eauto.
    - intros (x & H). destruct H. eauto.
  Qed.
  Lemma good_fits sp i r o : good_role sp i r -> get_object sp i = Some o -> fits r o.
  Proof.
    intros H G. destruct r; cbn in H |- *;
      try (pose proof (found_at _ _ _ H G) as X; first [exact X|destruct X as (d & D & _); eauto]; fail);
      try (destruct H as (x & H); pose proof (found_at _ _ _ H G) as (d & D & _); eauto; fail).
    - destruct H as (-> & ps & H). pose proof (found_at _ _ _ H G) as (d & D & _). eauto.
    - destruct H as (x & H). destruct (page_content_cases _ _ _ _ H G) as [(J & _)|[(J & _)|[(J & _)|[(J & _)|(J & _)]]]];
        try exact J; rewrite J; cbn; tauto.
    - destruct H as (x & H). destruct (item_cases _ _ _ _ H G) as [(J & _)|(J & _)]; rewrite J; auto.
    - destruct H as (x & H). destruct H as [i' o' d' cs ls s' l' is G' D' _ _ F1 F2 F3].
      assert (o' = o) as -> by congruence. eauto.
    - destruct H as (x & H). destruct (content_cases _ _ _ _ H G) as [(J & _)|[(J & _)|[(J & _)|[(J & _)|[(J & _)|(J & _)]]]]];
        try exact J; rewrite J; cbn; tauto.
    - destruct H as (x & H). pose proof (found_at _ _ _ H G) as (d & pd & ss & rs & is & D & _). eauto.
    - destruct H as (sx & sy & ss & b & H). pose proof (found_at _ _ _ H G) as (d & D & _). eauto.
    - destruct H as (sx & sy & s & H). pose proof (found_at _ _ _ H G) as (d & D & _). eauto.
    - destruct H as (x & H). destruct H as [i' o' d' rows cols cs lk ws bs ap aself tgs G' D' _ _ _ _ _ _ _ F1 F2].
      assert (o' = o) as -> by congruence. eauto.
    - destruct H as (x & H). destruct H as [i' o' d' cells G' D' F]. assert (o' = o) as -> by congruence. eauto.
    - destruct H as (x & H). destruct H as [i' o' d' cs co w ind G' D' _ _ _ F]. assert (o' = o) as -> by congruence. eauto.
  Qed.

  Lemma uuid_long o g : required o 0x1C001C30 uuid g -> ~ short_guid o.
  Proof.
    intros (v & S & d & t & -> & G) (d' & S' & L). assert (d' = d) as -> by congruence. apply guid_len in G. lia.
  Qed.
  Lemma indents_long o x : required o 0x1C001C12 indents x -> ~ short_indents o.
  Proof.
    intros (v & S & a & b & c & d & n & -> & N & e & t & -> & E & _) (d' & S' & L).
    assert (d' = n :: a :: b :: c :: e ++ t) as -> by congruence. destruct L as [L|(n' & d'' & Q & L)].
    - cbn [length] in L. lia.
    - injection Q as <- _. cbn [length] in L. rewrite app_length in L. lia.
  Qed.
  Lemma selects_in {A B} (keep : A -> bool) (R : A -> B -> Prop) l m a : selects keep R l m -> In a l -> keep a = true ->
    exists b, R a b /\ In b m.
  Proof.
    induction 1 as [|x l out K H IH|x l b out K Hr H IH]; [intros []| |].
    - intros [->|I] T; [congruence|exact (IH I T)].
    - intros [->|I] T; [exists b; split; [exact Hr|now left]|]. destruct (IH I T) as (y & Y & Z). exists y. split; [exact Y|now right].
  Qed.
  Lemma combine_in {A B} k : forall (l : list A) (m : list B) a b, nth_error l k = Some a -> nth_error m k = Some b -> In (a, b) (combine l m).
  Proof.
    induction k as [|k IH]; intros [|x l] [|y m] a b; cbn; try discriminate.
    - intros [= ->] [= ->]. now left.
    - intros H H'. right. exact (IH _ _ _ _ H H').
  Qed.
  Lemma embeds_typed sp refs k inks out t d : embeds sp refs k inks out -> In (Some t, d) inks ->
    t = 0x20027 \/ t = 0x20026 /\ ei_space_width d <> None /\ ei_space_height d <> None.
  Proof.
    induction 1 as [k|k d' r out _ IH|k d' h w r out Hh Hw _ IH|k d' id ss bb r out Hn Hd _ IH|k d' r out Hr _ IH]; [intros []| | | |];
      (intros [E|I]; [|exact (IH I)]).
    - injection E as <- <-. now left.
    - injection E as <- <-. right. split; [reflexivity|]. rewrite Hh, Hw. split; discriminate.
    - discriminate E.
    - discriminate E.
  Qed.

  Lemma not_wrong sp i r o e : good_role sp i r -> get_object sp i = Some o -> ~ wrong sp r o e.
  Proof.
    intros H G W. pose proof (good_fits _ _ _ _ H G) as F.
    assert (TX : r = R_text -> exists d styles runs inks ms out,
      text_object o d /\ Forall2 (fun sid sd => found sp sid (fun so => style_object so sd)) (rt_run_formatting d) styles /\
      run_data o runs /\
      selects (fun p => sy_math_formatting (snd p)) (fun p m => math_is (fst p) m) (combine runs styles) ms /\
      selects (fun p => sy_is_embedded_object (snd p))
        (fun p i => fst i = sy_object_type (snd p) /\ embedded_ink_run (fst p) (snd i)) (combine runs styles) inks /\
      embeds sp (rt_run_data_object d) 0 inks out).
    { intros ->. destruct H as (x & H).
      pose proof (found_at _ _ _ H G) as (d & pd & styles & runs & inks & D & _ & _ & S & _ & U & M & K & E & _).
      exists d, styles, runs, inks, (tx_math_objects x), (tx_embedded_objects x). auto 8. }
    assert (TR : forall run style, r = R_text -> run_of sp o run style -> exists d styles runs inks ms out,
      In (run, style) (combine runs styles) /\
      selects (fun p => sy_math_formatting (snd p)) (fun p m => math_is (fst p) m) (combine runs styles) ms /\
      selects (fun p => sy_is_embedded_object (snd p))
        (fun p i => fst i = sy_object_type (snd p) /\ embedded_ink_run (fst p) (snd i)) (combine runs styles) inks /\
      embeds sp (rt_run_data_object d) 0 inks out).
    { intros run style R (d' & runs' & styles' & k & D' & U' & S' & N1 & N2).
      destruct (TX R) as (d & styles & runs & inks & ms & out & D & S & U & M & K & E). same text_ok.
      pose proof (styles_fun _ _ _ _ S S'). subst styles'. pose proof (runs_fun _ _ _ U U'). subst runs'.
      eexists. exists styles, runs, inks, ms, out. split; [exact (combine_in k _ _ _ _ N1 N2)|]. exact (conj M (conj K E)). }
    destruct W as [I N|I N|I S|I S|d p g R D P I N|R N|run style R U T N|run style R U T N|run style R U T N|run style x R U T E B N|run style t R U T B N1 N2].
    - exact (N F).
    - exact (N F).
    - destruct I as [<-|[<-|[<-|[]]]]; cbn in F; destruct F as (d & D).
      + destruct D as (_ & _ & Q & _). exact (uuid_long _ _ Q S).
      + destruct D as (_ & Q & _). exact (uuid_long _ _ Q S).
      + destruct D as (_ & Q & _). exact (uuid_long _ _ Q S).
    - destruct I as [<-|[<-|[]]]; cbn in F; destruct F as (d & D); unfold outline_object, cell_object in D;
        repeat match goal with D : _ /\ _ |- _ => destruct D end;
        match goal with Q : required o 0x1C001C12 indents _ |- _ => exact (indents_long _ _ Q S) end.
    - subst r. destruct H as (sx & sy & s & H). pose proof (found_at _ _ _ H G) as (d' & D' & po & Gp & p' & P' & Q & _).
      same stroke_ok. pose proof (found_at _ _ _ P Gp) as P2. cbn in P2. same stroke_properties_ok.
      destruct Q as (ix & iy & X & Y & _). destruct I as [<-|[<-|[]]].
      + destruct X as ((x & HX & E) & _). apply nth_error_In in HX. exact (N x HX E).
      + destruct Y as ((x & HX & E) & _). apply nth_error_In in HX. exact (N x HX E).
    - destruct (TX R) as (d & styles & runs & inks & ms & out & D & S & U & _). exact (N runs U).
    - destruct (TR _ _ R U) as (d & styles & runs & inks & ms & out & J & M & _).
      destruct (selects_in _ _ _ _ _ M J T) as (m & Hm & _). exact (N m Hm).
    - destruct (TR _ _ R U) as (d & styles & runs & inks & ms & out & J & M & _).
      destruct (selects_in _ _ _ _ _ M J T) as (m & (md & Hm & _) & _). cbn in Hm.
      destruct N as (p & u & I & S & L). destruct Hm as (_ & _ & _ & _ & C0 & C1 & C2). unfold defaulted in C0, C1, C2.
      destruct I as [<-|[<-|[<-|[]]]]; [rewrite S in C0; destruct C0 as (n & [= <-] & _ & Z)
        |rewrite S in C1; destruct C1 as (n & [= <-] & _ & Z)|rewrite S in C2; destruct C2 as (n & [= <-] & _ & Z)]; exact (Z L).
    - destruct (TR _ _ R U) as (d & styles & runs & inks & ms & out & J & _ & K & _).
      destruct (selects_in _ _ _ _ _ K J T) as (m & (_ & Hm) & _). exact (N _ Hm).
    - destruct (TR _ _ R U) as (d & styles & runs & inks & ms & out & J & _ & K & Z).
      destruct (selects_in _ _ _ _ _ K J T) as ([t y] & (Ht & Hm) & Im). cbn in Ht, Hm. rewrite B in Ht. subst t.
      same embedded_ink_ok. destruct (embeds_typed _ _ _ _ _ _ _ Z Im) as [Q|(_ & Q1 & Q2)]; [discriminate Q|]. tauto.
    - destruct (TR _ _ R U) as (d & styles & runs & inks & ms & out & J & _ & K & Z).
      destruct (selects_in _ _ _ _ _ K J T) as ([t' y] & (Ht & Hm) & Im). cbn in Ht, Hm. rewrite B in Ht. subst t'.
      destruct (embeds_typed _ _ _ _ _ _ _ Z Im) as [Q|(Q & _)]; tauto.
  Qed.

  Lemma fault_unreadable name s e : section_is st name s -> ~ fault st e.
  Proof.
    intros H F. destruct F as [N|c (i & o & d & V & G & D & I) N|c sp (i & o & d & V & G & D & I) S N|sp i r V N|sp i r o e V G W].
    - destruct H as (mid & m & cid & d & M & _ & C & _). destruct N; congruence.
    - destruct (page_is_good _ _ _ c (all_good _ _ _ _ _ H V) G D I) as (sp' & S & _). congruence.
    - destruct (page_is_good _ _ _ c (all_good _ _ _ _ _ H V) G D I) as (sp' & S' & p & P).
      assert (sp' = sp) as -> by congruence. destruct P as (mi & pm & ci & pi & pd & M' & _ & C' & _). destruct N; congruence.
    - destruct (good_there _ _ _ (all_good _ _ _ _ _ H V)) as (o & G). congruence.
    - exact (not_wrong _ _ _ _ _ (all_good _ _ _ _ _ H V) G W).
  Qed.
End Section_.

Lemma toc_children_ok sp i ts o d j : listing sp i ts -> get_object sp i = Some o -> toc_object o d ->
  tc_filename d = None -> In j (tc_children d) -> exists ts', listing sp j ts'.
Proof.
  intros L G D F I. destruct L as [id o' d' k n G' D' F' O'|id o' d' ls G' D' F' H]; assert (o' = o) as -> by congruence;
    pose proof (node_fun _ _ toc_ok _ _ _ D D'); subst d'; [congruence|exact (all2_in _ _ _ _ H I)].
Qed.
Lemma toc_fault_unreadable sp names c e : toc_is sp names c -> ~ toc_fault sp e.
Proof.
  intros (id & ts & r & R & L & _) F.
  assert (V : forall i, toc_visits sp i -> exists ts', listing sp i ts').
  { intros i V. induction V as [i E|i o d j _ (ts' & IH) G D N I].
    - assert (i = id) as -> by congruence. eauto.
    - exact (toc_children_ok _ _ _ _ _ _ IH G D N I). }
  destruct F as [N|i X N|i o d n X G D E N|i o X G N].
  - congruence.
  - clear R L; destruct (V i X) as (ts' & L'); clear V X; inversion L' as [? o' ? ? ? G' ? ? ?|? o' ? ? G' ? ? ?]; congruence.
  - clear R L; destruct (V i X) as (ts' & L'); clear V X; inversion L' as [? o' d' k n' G' D' F' O'|? o' d' ls G' D' F' H]; subst; assert (o' = o) as -> by congruence;
      pose proof (node_fun _ _ toc_ok _ _ _ D D'); subst d'; congruence.
  - clear R L; destruct (V i X) as (ts' & L'); clear V X; inversion L' as [? o' d' k n' G' D' F' O'|? o' d' ls G' D' F' H]; subst; assert (o' = o) as -> by congruence;
      exact (N _ D').
Qed.

(** A GUID that is too short is reported as the end of the data. *)
Lemma guid_short o : short_guid o -> prop_guid P_NotebookManagementEntityGuid o = Err UnexpectedEof.
Proof.
  intros (d & S & L). unfold prop_guid, get_prop. change P_NotebookManagementEntityGuid with 0x1C001C30.
  unfold stored in S. rewrite S. cbn [opt_map_res to_vec ok_or rbind]. unfold run, guid_parse, pbind, get_u128, get_le, pbind, read, remaining.
  destruct (N.ltb_spec (N.of_nat (length d)) 16) as [_|H]; [reflexivity|lia].
Qed.
Lemma short_guid_reported o : short_guid o ->
  (ob_jcid o = 0x00060007 -> section_node_parse o = Err UnexpectedEof) /\
  (ob_jcid o = 0x00060008 -> page_series_node_parse o = Err UnexpectedEof) /\
  (ob_jcid o = 0x00020030 -> page_metadata_parse o = Err UnexpectedEof).
Proof.
  intros S. apply guid_short in S. refine (conj _ (conj _ _)); intros J;
    unfold section_node_parse, page_series_node_parse, page_metadata_parse, assert_kind; rewrite J; cbn [N.eqb Pos.eqb kind_jcid rbind];
    unfold req; rewrite S; reflexivity.
Qed.

Lemma fault_kinds st e : fault st e -> In e document_kinds.
Proof. intros [| | | |? ? ? ? k _ _ W]; [cbn; tauto ..|]. destruct W; cbn; tauto. Qed.
Lemma toc_fault_kinds sp e : toc_fault sp e -> In e toc_kinds.
Proof. intros []; cbn; tauto. Qed.
