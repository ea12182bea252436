(** What is read does not lead back to itself. *)
From Coq Require Import Lia ZifyBool ZifyNat ZifyN Relations.
From Verif Require Import Base BaseProofs Codec Package PropSet PropIds Store Shapes Props Nodes Doc Notebook
  SpecCodec SpecStore SpecValues SpecNodes SpecKinds StoreProofs StoreProofs3 NodesProofs NodesProofs2 NodesProofs3 SpecDoc DocProofs DocProofs2
  DocProofs3 DocProofs4 DocProofs5 DocProofs6 SpecNotebook NotebookProofs NotebookProofs2 SpecCause CauseProofs CauseProofs2 CauseProofs3 CauseProofs4
  SpecOpen OpenProofs OpenProofs2 SpecFate FateProofs.
Local Open Scope nat_scope.

Definition stepped (sp : space) (y x : exguid * role) : Prop := step sp x y.
(** How far a role is from the bottom; those of outlines, where this does not help, are
    at four. *)
Definition level (r : role) : nat :=
  match r with
  | R_section_meta | R_series | R_page_meta | R_list | R_style | R_tag | R_picture | R_iframe | R_file_data | R_pen => 0
  | R_section | R_stroke => 1
  | R_drawing => 2
  | R_text | R_image | R_file | R_ink => 3
  | R_item | R_group | R_element | R_content | R_table | R_row | R_cell => 4
  | R_outline => 5
  | R_title | R_page_content => 6
  | R_page => 7
  | R_manifest => 8
  end.
Lemma step_down sp i r j r' : step sp (i, r) (j, r') -> level r' < level r \/ level r = 4 /\ level r' = 4.
Proof.
  intros (o & _ & [L|(_ & K)]); cbn [fst snd] in *.
  - destruct L; cbn; lia.
  - destruct r; cbn in K; try (exfalso; exact K); repeat (destruct K as [K|K]; [injection K as _ <-; cbn; lia|]); destruct K.
Qed.
Lemma low_acc sp n : forall i r, level r < n -> level r < 4 -> Acc (stepped sp) (i, r).
Proof.
  induction n as [|n IH]; intros i r L B; [lia|]. constructor. intros [j r'] S. apply step_down in S as [S|(S & _)]; [|lia].
  apply IH; lia.
Qed.
Ltac low := apply (low_acc _ 4); cbn; lia.
Ltac kid HL y Y := match goal with X : In ?j _ |- Acc _ (?j, _) => destruct (map_ok_in _ _ _ _ HL X) as (y & Y) end.
Ltac at_same L := match type of L with forall o d, _ = Ok d <-> ?R o d =>
    match goal with X : R ?o ?a, Y : R ?o ?b |- _ => pose proof (node_fun _ _ L _ _ _ X Y); subst b end end.

Lemma outline_deep sp f :
  (forall i x, parse_outline_item f sp i = Ok x -> Acc (stepped sp) (i, R_item)) /\
  (forall i x, parse_outline_element f sp i = Ok x -> Acc (stepped sp) (i, R_element)) /\
  (forall i x, parse_content f sp i = Ok x -> Acc (stepped sp) (i, R_content)).
Proof.
  induction f as [|f (I1 & I2 & I3)]; [refine (conj _ (conj _ _)); intros i x H; discriminate H|].
  refine (conj _ (conj _ _)); intros i x H; cbn [parse_outline_item parse_outline_element parse_content] in H;
    apply bind_ok in H as (o & G & H); apply need_ok in G.
  - apply bind_ok in H as (k & J & H). apply need_kind_ok in J. constructor. intros [j r] (o' & G' & S). cbn [fst snd] in *.
    assert (o' = o) as -> by congruence. destruct S as [L|(Ej & K)]; [inversion L|]. subst j. cbn in K.
    destruct K as [K|[K|[]]]; injection K as K <-.
    + destruct k; cbn in J; try congruence; try discriminate H.
      apply bind_ok in H as (o' & G2 & H). apply need_ok in G2. assert (o' = o) as -> by congruence.
      apply bind_ok in H as (d & D & H). apply group_ok in D. apply bind_ok in H as (l & HL & _).
      constructor. intros [q r] (o' & G3 & S). cbn [fst snd] in *. assert (o' = o) as -> by congruence.
      destruct S as [L|(_ & K')]; [|destruct K']. inversion L; subst. at_same group_ok.
      kid HL y Y. exact (I1 _ _ Y).
    + destruct k; cbn in J; try congruence; try discriminate H.
      apply bind_ok in H as (e & E & _). exact (I2 _ _ E).
  - apply bind_ok in H as (d & D & H). apply element_ok in D. apply bind_ok in H as (l & HL & H). apply bind_ok in H as (l' & HL' & _).
    constructor. intros [j r] (o' & G' & S). cbn [fst snd] in *.
    assert (o' = o) as -> by congruence. destruct S as [L|(_ & K)]; [|destruct K]. inversion L; subst; [| |low]; at_same element_ok.
    + kid HL y Y. exact (I1 _ _ Y).
    + kid HL' y Y. exact (I3 _ _ Y).
  - apply bind_ok in H as (k & J & H). apply need_kind_ok in J. constructor. intros [j r] (o' & G' & S). cbn [fst snd] in *.
    assert (o' = o) as -> by congruence. destruct S as [L|(Ej & K)]; [inversion L|]. subst j. cbn in K.
    destruct K as [K|[K|[K|[K|[K|[]]]]]]; injection K as K <-; try low.
    destruct k; cbn in J; try congruence; try discriminate H.
    apply bind_ok in H as (t & H & _). unfold parse_table in H. apply bind_ok in H as (o' & G2 & H). apply need_ok in G2.
    assert (o' = o) as -> by congruence. apply bind_ok in H as (d & D & H). apply table_ok in D. apply bind_ok in H as (l & HL & _).
    constructor. intros [q r] (o' & G3 & S). cbn [fst snd] in *. assert (o' = o) as -> by congruence.
    destruct S as [L|(_ & K')]; [|destruct K']. inversion L; subst; [|low]. at_same table_ok.
    kid HL y Y. unfold parse_row in Y.
    apply bind_ok in Y as (ro & RG & Y). apply need_ok in RG. apply bind_ok in Y as (rd & RD & Y). apply row_ok in RD.
    apply bind_ok in Y as (cs & HC & _).
    constructor. intros [c r] (o' & G4 & S). cbn [fst snd] in *. assert (o' = ro) as -> by congruence.
    destruct S as [L2|(_ & K')]; [|destruct K']. inversion L2; subst. at_same row_ok.
    match goal with X : In _ (ro_cells _) |- _ => destruct (map_ok_in _ _ _ _ HC X) as (z & Z) end. unfold parse_cell in Z.
    apply bind_ok in Z as (co & CG & Z). apply need_ok in CG. apply bind_ok in Z as (cd & CD & Z). apply cell_ok in CD.
    apply bind_ok in Z as (es & HE & _).
    constructor. intros [e r] (o' & G5 & S). cbn [fst snd] in *. assert (o' = co) as -> by congruence.
    destruct S as [L3|(_ & K')]; [|destruct K']. inversion L3; subst. at_same cell_ok.
    match goal with X : In _ (ce_contents _) |- _ => destruct (map_ok_in _ _ _ _ HE X) as (w & W) end. exact (I2 _ _ W).
Qed.

Section Good.
  Variable st : store.
  Notation good := (good_role st).
  Lemma item_deep sp i : good sp i R_item -> Acc (stepped sp) (i, R_item).
  Proof. intros (x & H). apply item_settles in H as (k & H). exact (proj1 (outline_deep sp k) i x (H k (le_n k))). Qed.
  Lemma element_deep sp i : good sp i R_element -> Acc (stepped sp) (i, R_element).
  Proof. intros (x & H). apply element_settles in H as (k & H). exact (proj1 (proj2 (outline_deep sp k)) i x (H k (le_n k))). Qed.
  Lemma content_deep sp i : good sp i R_content -> Acc (stepped sp) (i, R_content).
  Proof. intros (x & H). apply content_settles in H as (k & H). exact (proj2 (proj2 (outline_deep sp k)) i x (H k (le_n k))). Qed.
  Lemma good_step sp x y : good sp (fst x) (snd x) -> step sp x y -> good sp (fst y) (snd y).
  Proof.
    destruct x as [i r], y as [j r']. cbn [fst snd]. intros H (o & G & [L|(E & K)]); cbn [fst snd] in *.
    - exact (leads_good st _ _ _ _ _ _ H G L).
    - subst j. exact (kind_good st _ _ _ _ _ H G K).
  Qed.
  (** Those of tables and groups follow. *)
  Lemma good_deep sp i r : good sp i r -> Acc (stepped sp) (i, r).
  Proof.
    assert (U' : forall i r, good sp i r -> (forall j r', good sp j r' -> step sp (i, r) (j, r') -> Acc (stepped sp) (j, r')) -> Acc (stepped sp) (i, r)).
    { intros i' r' Hp F. constructor. intros [j s] S. apply F; [|exact S]. exact (good_step sp (i', r') (j, s) Hp S). }
    Ltac onward := intros ? ? ? (? & _ & [?L|(?E & ?K)]); cbn [fst snd] in *;
      [inversion L; subst|cbn in K; try (exfalso; exact K)].
    assert (CELL : forall i, good sp i R_cell -> Acc (stepped sp) (i, R_cell)).
    { intros q H. apply U'; [exact H|]. onward. now apply element_deep. }
    assert (ROW : forall i, good sp i R_row -> Acc (stepped sp) (i, R_row)).
    { intros q H. apply U'; [exact H|]. onward. now apply CELL. }
    assert (TABLE : forall i, good sp i R_table -> Acc (stepped sp) (i, R_table)).
    { intros q H. apply U'; [exact H|]. onward; [now apply ROW|low]. }
    assert (GROUP : forall i, good sp i R_group -> Acc (stepped sp) (i, R_group)).
    { intros q H. apply U'; [exact H|]. onward. now apply item_deep. }
    assert (OUTLINE : forall i, good sp i R_outline -> Acc (stepped sp) (i, R_outline)).
    { intros q H. apply U'; [exact H|]. onward. now apply item_deep. }
    assert (TITLE : forall i, good sp i R_title -> Acc (stepped sp) (i, R_title)).
    { intros q H. apply U'; [exact H|]. onward. now apply OUTLINE. }
    assert (PC : forall i, good sp i R_page_content -> Acc (stepped sp) (i, R_page_content)).
    { intros q H. apply U'; [exact H|]. onward. repeat (destruct K as [K|K]; [injection K as _ <-; first [now apply OUTLINE|low]|]). destruct K. }
    assert (PAGE : forall i, good sp i R_page -> Acc (stepped sp) (i, R_page)).
    { intros q H. apply U'; [exact H|]. onward; [now apply TITLE|now apply PC]. }
    assert (MANIFEST : forall i, good sp i R_manifest -> Acc (stepped sp) (i, R_manifest)).
    { intros q H. apply U'; [exact H|]. onward. now apply PAGE. }
    intros H. destruct r; first [low|exact (item_deep _ _ H)|exact (element_deep _ _ H)|exact (content_deep _ _ H)|auto].
  Qed.
  Lemma read_no_round name s : section_is st name s -> ~ comes_round st.
  Proof.
    intros H (sp & i & r & V & L). apply (all_good st _ _ _ _ _ H) in V. apply good_deep in V. revert L. now apply acc_loop.
  Qed.
  Lemma read_no_crash name s : section_is st name s -> ~ crash_at st.
  Proof.
    intros H (sp & i & [(V & C)|(V & C)]); apply (all_good st _ _ _ _ _ H) in V; destruct V as (x & V).
    - apply list_crash in C. apply list_is_ok in V. congruence.
    - apply text_crash in C. apply text_is_ok in V. congruence.
  Qed.
End Good.
