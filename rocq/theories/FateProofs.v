(** Crashing, endless and finished readings of a section. *)
From Coq Require Import Lia ZifyBool ZifyNat ZifyN Relations.
From Verif Require Import Base BaseProofs Codec Package PropSet PropIds Store Shapes Props Nodes Doc Notebook
  SpecCodec SpecStore SpecValues SpecNodes SpecKinds StoreProofs NodesProofs NodesProofs2 NodesProofs3 SpecDoc DocProofs DocProofs2
  DocProofs3 DocProofs4 DocProofs5 DocProofs6 SpecNotebook SpecCause CauseProofs CauseProofs2 CauseProofs3 SpecFate.
Local Open Scope nat_scope.

(** ** Crashes and running out of steps, tracked through a computation *)
Definition tame (P Q : Prop) {A} (r : res A) : Prop := (r = Panic -> P) /\ (r = OutOfFuel -> Q).
Lemma tame_bind P Q {A B} (r : res A) (f : A -> res B) :
  tame P Q r -> (forall a, r = Ok a -> tame P Q (f a)) -> tame P Q (rbind r f).
Proof. intros (H1 & H2) F. destruct r; cbn; [apply F; reflexivity|split; discriminate|split; [intros _; exact (H1 eq_refl)|discriminate]|split; [discriminate|intros _; exact (H2 eq_refl)]]. Qed.
Lemma tame_ret P Q {A} (r : res A) : returns r -> tame P Q r.
Proof. intros R. split; intros E; rewrite E in R; destruct R. Qed.
Lemma tame_ok P Q {A} (a : A) : tame P Q (Ok a).
Proof. split; discriminate. Qed.
Lemma tame_err P Q {A} e : tame P Q (@Err A e).
Proof. split; discriminate. Qed.
Lemma tame_map P Q {A B} (f : A -> res B) l : (forall a, In a l -> tame P Q (f a)) -> tame P Q (map_res f l).
Proof.
  intros H. split; intros E.
  - apply crash_map in E as (a & I & E). now apply (H a I).
  - apply fuel_map in E as (a & I & E). now apply (H a I).
Qed.
Lemma tame_opt P Q {A B} (f : A -> res B) x : (forall a, x = Some a -> tame P Q (f a)) -> tame P Q (opt_map_res f x).
Proof.
  intros H. split; intros E.
  - apply crash_opt in E as (a & I & E). now apply (H a I).
  - apply fuel_opt in E as (a & I & E). now apply (H a I).
Qed.
Lemma tame_mono (P P' Q Q' : Prop) {A} (r : res A) : (P -> P') -> (Q -> Q') -> tame P Q r -> tame P' Q' r.
Proof. intros p q (H1 & H2). split; auto. Qed.

(** ** The objects passed on the way down an outline *)
Definition passed (sp : space) (x : exguid * role) : Prop :=
  exists o, get_object sp (fst x) = Some o /\
    (snd x = R_item /\ (ob_jcid o = 0x60019 \/ ob_jcid o = 0x6000D)%N \/ snd x = R_element /\ ob_jcid o = 0x6000D%N \/
     snd x = R_content /\ ob_jcid o = 0x60022%N).
Definition trace (sp : space) (v : list (exguid * role)) (x : exguid * role) : Prop :=
  NoDup v /\ forall y, In y v -> passed sp y /\ clos_trans _ (step sp) y x.
Definition is_element (r : role) : bool := match r with R_element => true | _ => false end.
Definition key (x : exguid * role) : exguid * bool := (fst x, is_element (snd x)).
Lemma key_inj sp x y : passed sp x -> passed sp y -> key x = key y -> x = y.
Proof.
  destruct x as [i r], y as [j s]. intros (o & G & H) (o' & G' & H') E. cbn [fst snd] in *. unfold key in E. cbn [fst snd] in E.
  injection E as -> E. assert (o' = o) as -> by congruence.
  destruct H as [(-> & H)|[(-> & H)|(-> & H)]], H' as [(-> & H')|[(-> & H')|(-> & H')]]; try reflexivity; try discriminate E;
    exfalso; repeat match goal with X : _ \/ _ |- _ => destruct X end; congruence.
Qed.
Lemma trace_bound sp v x : trace sp v x -> length v <= 2 * length (sp_objects sp).
Proof.
  intros (Nd & H).
  assert (N : NoDup (map key v)).
  { assert (P : forall y, In y v -> passed sp y) by (intros y I; exact (proj1 (H y I))). clear H.
    induction Nd as [|a v N Nd IH]; cbn; [constructor|]. constructor.
    - intros I. apply in_map_iff in I as (b & E & I).
      assert (b = a) as -> by (apply (key_inj sp); [apply P; now right|apply P; now left|exact E]). contradiction.
    - apply IH. intros y I. apply P. now right. }
  assert (I : incl (map key v) (list_prod (map fst (sp_objects sp)) [true; false])).
  { intros k K. apply in_map_iff in K as ([i r] & <- & K). apply H in K as ((o & G & _) & _). unfold key. cbn [fst snd] in *.
    apply in_prod; [|destruct (is_element r); cbn; tauto].
    unfold get_object in G. apply (alookup_in exguid_eqb PackageRT.exguid_eqb_eq) in G. now apply (in_map fst) in G. }
  apply (NoDup_incl_length N) in I. rewrite prod_length, !map_length in I. cbn [length] in I. lia.
Qed.
Lemma pair_dec (x y : exguid * role) : {x = y} + {x <> y}.
Proof. repeat decide equality. Qed.

Section Fate.
  Variable st : store.
  Notation sees := (visits st).
  Ltac next V G := apply (vi_next _ _ _ _ _ _ _ V G).
  Ltac known D E L := assert (D := E); apply L in D.
  Ltac same V G J := apply (vi_kind _ _ _ _ _ _ V G); cbn; rewrite J; cbn; tauto.

  Lemma need_tame P Q {A} sp i (k : object -> res A) : (forall o, get_object sp i = Some o -> tame P Q (k o)) ->
    tame P Q (let! o := need_object i sp in k o).
  Proof. intros H. apply tame_bind; [apply tame_ret, ret_need|]. intros o G. apply H. now apply need_ok. Qed.
  Lemma list_tame Q sp i : sees sp i R_list -> tame (crash_at st) Q (parse_list i sp).
  Proof.
    intros V. split; intros E; [|now apply list_parse_no_fuel in E]. exists sp, i. left. split; [exact V|]. now apply list_crash.
  Qed.
  Lemma text_tame Q sp i : sees sp i R_text -> tame (crash_at st) Q (parse_rich_text i sp).
  Proof.
    intros V. split; intros E; [|now apply text_no_fuel in E]. exists sp, i. right. split; [exact V|]. now apply text_crash.
  Qed.

  Notation enough f sp v := (2 * length (sp_objects sp) < f + length v).
  (** Passing one more object. *)
  Lemma trace_step sp v x y : trace sp v x -> passed sp x -> sees sp (fst x) (snd x) -> clos_trans _ (step sp) x y ->
    comes_round st \/ trace sp (x :: v) y.
  Proof.
    intros (Nd & H) P V S. destruct (in_dec pair_dec x v) as [I|N].
    - left. exists sp, (fst x), (snd x). split; [exact V|]. apply H in I as (_ & I). destruct x. exact I.
    - right. split; [constructor; assumption|]. intros z [<-|I]; [auto|]. destruct (H z I) as (K & T). split; [exact K|].
      eapply t_trans; [exact T|exact S].
  Qed.
  Lemma by_leads sp i o r j r' : get_object sp i = Some o -> leads sp o r j r' -> clos_trans _ (step sp) (i, r) (j, r').
  Proof. intros G L. apply t_step. exists o. split; [exact G|]. left. exact L. Qed.
  Lemma by_kind sp i o r r' : get_object sp i = Some o -> kind_role r (ob_jcid o) r' -> clos_trans _ (step sp) (i, r) (i, r').
  Proof. intros G L. apply t_step. exists o. split; [exact G|]. right. split; [reflexivity|exact L]. Qed.
  (** The crash half needs no trace. *)
  Lemma outline_crashes f : forall sp,
    (forall i, sees sp i R_item -> tame (crash_at st) True (parse_outline_item f sp i)) /\
    (forall i, sees sp i R_element -> tame (crash_at st) True (parse_outline_element f sp i)) /\
    (forall i, sees sp i R_content -> tame (crash_at st) True (parse_content f sp i)).
  Proof.
    induction f as [|f IH]; intros sp.
    { refine (conj _ (conj _ _)); intros i _; (split; [discriminate|auto]). }
    destruct (IH sp) as (I1 & I2 & I3). refine (conj _ (conj _ _)); intros i V;
      cbn [parse_outline_item parse_outline_element parse_content]; apply need_tame; intros o G.
    - apply tame_bind; [apply tame_ret, ret_need_kind|]. intros k J. apply need_kind_ok in J.
      destruct k; try apply tame_err.
      + apply tame_bind; [apply I2; same V G J|]. intros; apply tame_ok.
      + assert (W : sees sp i R_group) by same V G J. apply need_tame. intros o' G'.
        apply tame_bind; [apply tame_ret, group_ret|]. intros d E. known D E group_ok.
        apply tame_bind; [|intros; apply tame_ok]. apply tame_map. intros j Hj. apply I1.
        next W G'. exact (le_group_item sp o' d j D Hj).
    - apply tame_bind; [apply tame_ret, element_ret|]. intros d E. known D E element_ok.
      apply tame_bind; [apply tame_map; intros j Hj; apply I1; next V G; exact (le_element_item sp o d j D Hj)|]. intros ? _.
      apply tame_bind; [apply tame_map; intros j Hj; apply I3; next V G; exact (le_element_content sp o d j D Hj)|]. intros ? _.
      apply tame_bind; [apply tame_map; intros j Hj; apply list_tame; next V G; exact (le_element_list sp o d j D Hj)|].
      intros ? _. apply tame_ok.
    - apply tame_bind; [apply tame_ret, ret_need_kind|]. intros k J. apply need_kind_ok in J.
      destruct k; try apply tame_ok.
      + apply tame_ret, ret_bind; [apply ret_file|intros; exact I].
      + apply tame_ret, ret_bind; [apply ret_image|intros; exact I].
      + apply tame_bind; [apply text_tame; same V G J|intros; apply tame_ok].
      + apply tame_bind; [|intros; apply tame_ok]. assert (W : sees sp i R_table) by same V G J.
        unfold parse_table. apply need_tame. intros o' G'.
        apply tame_bind; [apply tame_ret, table_ret|]. intros d E. known D E table_ok.
        apply tame_bind.
        { apply tame_map. intros j Hj.
          assert (X : sees sp j R_row) by (next W G'; exact (le_row sp o' d j D Hj)).
          unfold parse_row. apply need_tame. intros y Y.
          apply tame_bind; [apply tame_ret, row_ret|]. intros d2 E2. known D2 E2 row_ok.
          apply tame_bind; [|intros; apply tame_ok]. apply tame_map. intros c Hc.
          assert (Z : sees sp c R_cell) by (next X Y; exact (le_cell sp y d2 c D2 Hc)).
          unfold parse_cell. apply need_tame. intros z HZ. apply tame_bind; [apply tame_ret, cell_ret|].
          intros d3 E3. known D3 E3 cell_ok. apply tame_bind; [|intros; apply tame_ok].
          apply tame_map. intros q Hq. apply I2. next Z HZ. exact (le_cell_element sp z d3 q D3 Hq). }
        intros ? _. apply tame_ret, ret_bind; [apply ret_note_tags|intros; exact I].
      + apply tame_ret, ret_bind; [apply ret_ink|intros; exact I].
  Qed.

  (** Running out of steps. *)
  Notation ends f sp v r := (tame True (enough f sp v -> comes_round st) r).
  Lemma ends_round P {A} (r : res A) : comes_round st -> tame True (P -> comes_round st) r.
  Proof. intros R. split; auto. Qed.
  Lemma ends_more f sp (v : list (exguid * role)) x {A} (r : res A) : ends f sp (x :: v) r -> ends (S f) sp v r.
  Proof. apply tame_mono; [auto|]. intros H E. apply H. cbn [length]. lia. Qed.
  Ltac pass T P V S := match type of P with passed _ ?x =>
    destruct (trace_step _ _ _ _ T P V S) as [R|T']; [apply ends_round; exact R|] end.
  Lemma outline_ends f : forall sp (v : list (exguid * role)),
    (forall i, sees sp i R_item -> trace sp v (i, R_item) -> ends f sp v (parse_outline_item f sp i)) /\
    (forall i, sees sp i R_element -> trace sp v (i, R_element) -> ends f sp v (parse_outline_element f sp i)) /\
    (forall i, sees sp i R_content -> trace sp v (i, R_content) -> ends f sp v (parse_content f sp i)).
  Proof.
    induction f as [|f IH]; intros sp v.
    { refine (conj _ (conj _ _)); intros i _ T; (split; [auto|]); intros _ L; apply trace_bound in T; lia. }
    refine (conj _ (conj _ _)); intros i V T;
      cbn [parse_outline_item parse_outline_element parse_content]; apply need_tame; intros o G.
    - apply tame_bind; [apply tame_ret, ret_need_kind|]. intros k J. apply need_kind_ok in J.
      destruct k; try apply tame_err.
      + assert (P : passed sp (i, R_item)) by (exists o; split; [exact G|left; split; [reflexivity|right; exact J]]).
        assert (S : clos_trans _ (step sp) (i, R_item) (i, R_element)) by (apply (by_kind sp i o); [exact G|rewrite J; cbn; tauto]).
        pass T P V S.
        apply tame_bind; [eapply ends_more, IH; [same V G J|exact T']|]. intros; apply tame_ok.
      + assert (W : sees sp i R_group) by same V G J. apply need_tame. intros o' G'. assert (o' = o) as -> by congruence.
        apply tame_bind; [apply tame_ret, group_ret|]. intros d E. known D E group_ok.
        apply tame_bind; [|intros; apply tame_ok]. apply tame_map. intros j Hj.
        assert (L := le_group_item sp o d j D Hj).
        assert (P : passed sp (i, R_item)) by (exists o; split; [exact G|left; split; [reflexivity|left; exact J]]).
        assert (S : clos_trans _ (step sp) (i, R_item) (j, R_item)).
        { eapply t_trans; [apply (by_kind sp i o _ R_group); [exact G|rewrite J; cbn; tauto]|]. exact (by_leads _ _ _ _ _ _ G L). }
        pass T P V S. eapply ends_more, IH; [next W G'; exact L|exact T'].
    - apply tame_bind; [apply tame_ret, element_ret|]. intros d E. known D E element_ok.
      assert (P : passed sp (i, R_element)) by (exists o; split; [exact G|right; left; split; [reflexivity|exact (proj1 D)]]).
      apply tame_bind.
      { apply tame_map. intros j Hj. assert (L := le_element_item sp o d j D Hj). assert (S := by_leads _ _ _ _ _ _ G L).
        pass T P V S. eapply ends_more, IH; [next V G; exact L|exact T']. }
      intros ? _. apply tame_bind.
      { apply tame_map. intros j Hj. assert (L := le_element_content sp o d j D Hj). assert (S := by_leads _ _ _ _ _ _ G L).
        pass T P V S. eapply ends_more, IH; [next V G; exact L|exact T']. }
      intros ? _. apply tame_bind; [|intros; apply tame_ok]. apply tame_map. intros j _.
      split; [auto|]. intros E'. now apply list_parse_no_fuel in E'.
    - apply tame_bind; [apply tame_ret, ret_need_kind|]. intros k J. apply need_kind_ok in J.
      destruct k; try apply tame_ok.
      + apply tame_ret, ret_bind; [apply ret_file|intros; exact I].
      + apply tame_ret, ret_bind; [apply ret_image|intros; exact I].
      + apply tame_bind; [|intros; apply tame_ok]. split; [auto|]. intros E. now apply text_no_fuel in E.
      + apply tame_bind; [|intros; apply tame_ok]. assert (W : sees sp i R_table) by same V G J.
        unfold parse_table. apply need_tame. intros o' G'. assert (o' = o) as -> by congruence.
        apply tame_bind; [apply tame_ret, table_ret|]. intros d E. known D E table_ok.
        apply tame_bind.
        { apply tame_map. intros j Hj. assert (L := le_row sp o d j D Hj).
          assert (X : sees sp j R_row) by (next W G'; exact L).
          unfold parse_row. apply need_tame. intros y Y.
          apply tame_bind; [apply tame_ret, row_ret|]. intros d2 E2. known D2 E2 row_ok.
          apply tame_bind; [|intros; apply tame_ok]. apply tame_map. intros c Hc. assert (L2 := le_cell sp y d2 c D2 Hc).
          assert (Z : sees sp c R_cell) by (next X Y; exact L2).
          unfold parse_cell. apply need_tame. intros z HZ. apply tame_bind; [apply tame_ret, cell_ret|].
          intros d3 E3. known D3 E3 cell_ok. apply tame_bind; [|intros; apply tame_ok].
          apply tame_map. intros q Hq. assert (L3 := le_cell_element sp z d3 q D3 Hq).
          assert (P : passed sp (i, R_content)) by (exists o; split; [exact G|right; right; split; [reflexivity|exact J]]).
          assert (S : clos_trans _ (step sp) (i, R_content) (q, R_element)).
          { eapply t_trans; [apply (by_kind sp i o _ R_table); [exact G|rewrite J; cbn; tauto]|].
            eapply t_trans; [exact (by_leads _ _ _ _ _ _ G L)|].
            eapply t_trans; [exact (by_leads _ _ _ _ _ _ Y L2)|]. exact (by_leads _ _ _ _ _ _ HZ L3). }
          pass T P V S. eapply ends_more, IH; [next Z HZ; exact L3|exact T']. }
        intros ? _. apply tame_ret, ret_bind; [apply ret_note_tags|intros; exact I].
      + apply tame_ret, ret_bind; [apply ret_ink|intros; exact I].
  Qed.

  (** Both together, for whole outlines, pages and the section. *)
  Definition wide (f : nat) (sp : space) : Prop := 2 * length (sp_objects sp) < f.
  Notation known_fate f sp r := (tame (crash_at st) (wide f sp -> comes_round st) r).
  Lemma item_fate f sp i : sees sp i R_item -> known_fate f sp (parse_outline_item f sp i).
  Proof.
    intros V. destruct (outline_crashes f sp) as (C & _). destruct (outline_ends f sp []) as (E & _).
    split; [exact (proj1 (C i V))|]. intros H L. refine (proj2 (E i V _) H _).
    - split; [constructor|intros y []].
    - unfold wide in L. cbn [length]. lia.
  Qed.
  Lemma whole_fate f sp i : sees sp i R_outline -> known_fate f sp (parse_outline f sp i).
  Proof.
    intros V. apply need_tame. intros o G. apply tame_bind; [apply tame_ret, outline_ret|].
    intros d E. known D E outline_ok. apply tame_bind; [|intros; apply tame_ok].
    apply tame_map. intros j Hj. apply item_fate. next V G. exact (le_outline_item sp o d j D Hj).
  Qed.
  Lemma page_content_fate f sp i : sees sp i R_page_content -> known_fate f sp (parse_page_content f sp i).
  Proof.
    intros V. apply need_tame. intros o G. apply tame_bind; [apply tame_ret, ret_need_kind|]. intros k J. apply need_kind_ok in J.
    destruct k; try apply tame_ok.
    - apply tame_ret, ret_bind; [apply ret_file|intros; exact I].
    - apply tame_ret, ret_bind; [apply ret_image|intros; exact I].
    - apply tame_bind; [apply whole_fate; same V G J|intros; apply tame_ok].
    - apply tame_ret, ret_bind; [apply ret_ink|intros; exact I].
  Qed.
  Lemma title_fate f sp i : sees sp i R_title -> known_fate f sp (parse_title f sp i).
  Proof.
    intros V. apply need_tame. intros o G. apply tame_bind; [apply tame_ret, title_ret|]. intros d E. known D E title_ok.
    apply tame_bind; [|intros; apply tame_ok]. apply tame_map. intros j Hj. apply whole_fate.
    next V G. exact (le_title_outline sp o d j D Hj).
  Qed.
  Lemma page_fate f i o d c sp : sees (st_data_root st) i R_series -> get_object (st_data_root st) i = Some o ->
    series_node o d -> In c (pn_page_spaces d) -> object_space st c = Some sp -> known_fate f sp (parse_page f sp).
  Proof.
    intros V G D I S. unfold parse_page. apply tame_bind; [apply tame_ret, ret_page_metadata|]. intros m _.
    apply tame_bind; [apply tame_ret, ret_page_manifest|]. intros pid Hp. unfold page_manifest in Hp.
    apply bind_ok in Hp as (j & J & Hp). destruct (content_root sp) as [j'|] eqn:R; [|discriminate J].
    injection J as ->. assert (HB : sees sp j R_manifest) by exact (vi_manifest st i o d c sp j V G D I S R).
    apply bind_ok in Hp as (x & X & Hp). apply need_ok in X.
    apply manifest_ok in Hp. assert (W : sees sp pid R_page) by (next HB X; exact (le_page sp x pid Hp)).
    apply tame_bind; [apply tame_ret, ret_page_node|]. unfold page_node.
    intros pd E. apply bind_ok in E as (y & Y & E). apply need_ok in Y. apply page_ok in E.
    apply tame_bind.
    { apply tame_opt. intros q Q. apply title_fate. next W Y. exact (le_title sp y pd q E Q). }
    intros t _. apply tame_bind; [|intros; apply tame_ok]. apply tame_map. intros q Q.
    apply page_content_fate. next W Y. exact (le_page_content sp y pd q E Q).
  Qed.
  Lemma section_fate f name :
    tame (crash_at st) ((forall c sp, page_at st c -> object_space st c = Some sp -> wide f sp) -> comes_round st) (parse_section f st name).
  Proof.
    unfold parse_section. apply tame_bind; [apply tame_ret, ret_section_metadata|].
    intros m _. apply tame_bind; [apply tame_ret, ret_section_content|]. unfold section_content.
    intros d E. apply bind_ok in E as (j & J & E). destruct (content_root (st_data_root st)) as [j'|] eqn:R; [|discriminate J].
    injection J as ->. apply bind_ok in E as (x & X & E). apply need_ok in X. apply section_node_ok in E.
    cbv zeta. apply tame_bind; [|intros; apply tame_ok]. apply tame_map. intros q Q.
    assert (V : sees (st_data_root st) q R_series).
    { apply (vi_next _ _ _ _ _ _ _ (vi_section st j R) X). exact (le_series _ x d q E Q). }
    apply need_tame. intros o G. apply tame_bind; [apply tame_ret, series_ret|].
    intros sd HS. known D HS series_ok. apply tame_map. intros c I. apply tame_bind; [apply tame_ret, ret_ok_or|].
    intros sp S. apply some_ok in S. generalize (page_fate f q o sd c sp V G D I S). apply tame_mono; [auto|].
    intros H L. apply H. apply (L c); [exists q, o, sd; auto|exact S].
  Qed.
End Fate.
