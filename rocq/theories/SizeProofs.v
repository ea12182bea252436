(** The size of a document: bounded by the number of objects if these form a tree. *)
From Coq Require Import Lia ZifyBool ZifyNat ZifyN Relations Permutation.
From Verif Require Import Base BaseProofs Codec Package PropSet PropIds Store Shapes Props Nodes Doc Notebook SpecCodec SpecValues SpecNodes
  StoreProofs NodesProofs NodesProofs2 SpecDoc DocProofs DocProofs2 DocProofs4 SpecSize.
From Verif Require PackageRT.

(** ** The listed objects, computed *)
Definition kids (sp : space) (a : exguid) : list exguid :=
  match get_object sp a with
  | None => []
  | Some o =>
    match page_node_parse o with
    | Ok d => match pd_title d with Some t => [t] | None => [] end ++ pd_content d
    | _ => match title_node_parse o with
    | Ok d => tn_children d
    | _ => match outline_node_parse o with
    | Ok d => ou_children d
    | _ => match outline_group_node_parse o with
    | Ok d => gr_children d
    | _ => match outline_element_node_parse o with
    | Ok d => oe_children d ++ oe_contents d
    | _ => match table_node_parse o with
    | Ok d => ta_rows d
    | _ => match table_row_node_parse o with
    | Ok d => ro_cells d
    | _ => match table_cell_node_parse o with
    | Ok d => ce_contents d
    | _ => []
    end end end end end end end end
  end.

Ltac kinds := repeat match goal with
  | H : page_node_parse _ = Ok _ |- _ => apply page_ok, proj1 in H
  | H : title_node_parse _ = Ok _ |- _ => apply title_ok, proj1 in H
  | H : outline_node_parse _ = Ok _ |- _ => apply outline_ok, proj1 in H
  | H : outline_group_node_parse _ = Ok _ |- _ => apply group_ok, proj1 in H
  | H : outline_element_node_parse _ = Ok _ |- _ => apply element_ok, proj1 in H
  | H : table_node_parse _ = Ok _ |- _ => apply table_ok, proj1 in H
  | H : table_row_node_parse _ = Ok _ |- _ => apply row_ok, proj1 in H
  | H : table_cell_node_parse _ = Ok _ |- _ => apply cell_ok, proj1 in H
  end; congruence.

Lemma lists_kids sp a l : lists sp a l -> kids sp a = l.
Proof.
  intros (o & Ho & H). unfold kids. rewrite Ho.
  destruct H as [H|[H|[H|[H|[H|[H|[H|H]]]]]]]; destruct H as (d & H & ->).
  - apply page_ok in H. now rewrite H.
  - apply title_ok in H. destruct (page_node_parse o) eqn:E1; try (exfalso; kinds); now rewrite H.
  - apply outline_ok in H. destruct (page_node_parse o) eqn:E1; try (exfalso; kinds);
    destruct (title_node_parse o) eqn:E2; try (exfalso; kinds); now rewrite H.
  - apply group_ok in H. destruct (page_node_parse o) eqn:E1; try (exfalso; kinds);
    destruct (title_node_parse o) eqn:E2; try (exfalso; kinds);
    destruct (outline_node_parse o) eqn:E3; try (exfalso; kinds); now rewrite H.
  - apply element_ok in H. destruct (page_node_parse o) eqn:E1; try (exfalso; kinds);
    destruct (title_node_parse o) eqn:E2; try (exfalso; kinds);
    destruct (outline_node_parse o) eqn:E3; try (exfalso; kinds);
    destruct (outline_group_node_parse o) eqn:E4; try (exfalso; kinds); now rewrite H.
  - apply table_ok in H. destruct (page_node_parse o) eqn:E1; try (exfalso; kinds);
    destruct (title_node_parse o) eqn:E2; try (exfalso; kinds);
    destruct (outline_node_parse o) eqn:E3; try (exfalso; kinds);
    destruct (outline_group_node_parse o) eqn:E4; try (exfalso; kinds);
    destruct (outline_element_node_parse o) eqn:E5; try (exfalso; kinds); now rewrite H.
  - apply row_ok in H. destruct (page_node_parse o) eqn:E1; try (exfalso; kinds);
    destruct (title_node_parse o) eqn:E2; try (exfalso; kinds);
    destruct (outline_node_parse o) eqn:E3; try (exfalso; kinds);
    destruct (outline_group_node_parse o) eqn:E4; try (exfalso; kinds);
    destruct (outline_element_node_parse o) eqn:E5; try (exfalso; kinds);
    destruct (table_node_parse o) eqn:E6; try (exfalso; kinds); now rewrite H.
  - apply cell_ok in H. destruct (page_node_parse o) eqn:E1; try (exfalso; kinds);
    destruct (title_node_parse o) eqn:E2; try (exfalso; kinds);
    destruct (outline_node_parse o) eqn:E3; try (exfalso; kinds);
    destruct (outline_group_node_parse o) eqn:E4; try (exfalso; kinds);
    destruct (outline_element_node_parse o) eqn:E5; try (exfalso; kinds);
    destruct (table_node_parse o) eqn:E6; try (exfalso; kinds);
    destruct (table_row_node_parse o) eqn:E7; try (exfalso; kinds); now rewrite H.
Qed.

Lemma kids_lists sp a b : In b (kids sp a) -> lists sp a (kids sp a).
Proof.
  unfold kids. destruct (get_object sp a) as [o|] eqn:Ho; [|intros []]. intro H. exists o. split; [exact Ho|].
  destruct (page_node_parse o) eqn:E1; [left; apply page_ok in E1; eauto|..]; right;
  (destruct (title_node_parse o) eqn:E2; [left; apply title_ok in E2; eauto|..]; right;
  (destruct (outline_node_parse o) eqn:E3; [left; apply outline_ok in E3; eauto|..]; right;
  (destruct (outline_group_node_parse o) eqn:E4; [left; apply group_ok in E4; eauto|..]; right;
  (destruct (outline_element_node_parse o) eqn:E5; [left; apply element_ok in E5; eauto|..]; right;
  (destruct (table_node_parse o) eqn:E6; [left; apply table_ok in E6; eauto|..]; right;
  (destruct (table_row_node_parse o) eqn:E7; [left; apply row_ok in E7; eauto|..]; right;
  (destruct (table_cell_node_parse o) eqn:E8; [apply cell_ok in E8; eauto|..]; destruct H))))))).
Qed.

(** ** All objects below some, level by level *)
Fixpoint below (sp : space) (n : nat) (l : list exguid) : list exguid :=
  match n with O => [] | S m => l ++ below sp m (flat_map (kids sp) l) end.

Definition reaches (sp : space) : exguid -> exguid -> Prop := clos_trans _ (listed sp).
Definition apart (sp : space) (l : list exguid) : Prop := forall x y, In x l -> In y l -> ~ reaches sp x y.

Lemma listed_kids sp a b : listed sp a b <-> In b (kids sp a).
Proof.
  split.
  - intros (l & L & I). now rewrite (lists_kids _ _ _ L).
  - intro I. exists (kids sp a). split; [now apply (kids_lists _ _ b)|exact I].
Qed.

Lemma below_reached sp n : forall l y, In y (below sp n l) -> In y l \/ exists x, In x l /\ reaches sp x y.
Proof.
  induction n as [|n IH]; cbn; intros l y H; [destruct H|]. apply in_app_iff in H as [H|H]; [now left|right].
  apply IH in H as [H|(x & X & R)].
  - apply in_flat_map in H as (p & P & K). exists p. split; [exact P|]. apply t_step. now apply listed_kids.
  - apply in_flat_map in X as (p & P & K). exists p. split; [exact P|]. eapply t_trans; [apply t_step, listed_kids; exact K|exact R].
Qed.

Lemma nodup_nth {A} (l : list A) : (forall i j x, nth_error l i = Some x -> nth_error l j = Some x -> i = j) -> NoDup l.
Proof.
  induction l as [|a l IH]; intro H; constructor.
  - intro I. apply In_nth_error in I as (j & J). specialize (H 0%nat (S j) a eq_refl J). discriminate.
  - apply IH. intros i j x X Y. specialize (H (S i) (S j) x X Y). lia.
Qed.

Lemma nodup_apart {A} (l l' : list A) : NoDup l -> NoDup l' -> (forall x, In x l -> ~ In x l') -> NoDup (l ++ l').
Proof.
  induction l as [|a l IH]; cbn; intros D D' H; [exact D'|]. inversion D; subst. constructor.
  - rewrite in_app_iff. intros [X|X]; [auto|apply (H a); auto].
  - apply IH; auto.
Qed.

Lemma nodup_flat sp l : tree sp -> NoDup l -> NoDup (flat_map (kids sp) l).
Proof.
  intros (T & _). induction l as [|a l IH]; cbn; intro D; [constructor|]. inversion D as [|? ? N D']; subst.
  apply nodup_apart; [|auto|].
  - apply nodup_nth. intros i j x X Y. assert (L : lists sp a (kids sp a)) by (eapply kids_lists, nth_error_In, X).
    exact (proj2 (T _ _ _ _ _ _ _ L L X Y)).
  - intros x X Y. apply in_flat_map in Y as (b & B & Y). assert (La := kids_lists _ _ _ X). assert (Lb := kids_lists _ _ _ Y).
    apply In_nth_error in X as (i & X). apply In_nth_error in Y as (j & Y).
    destruct (T _ _ _ _ _ _ _ La Lb X Y) as (-> & _). contradiction.
Qed.

Lemma unique_parent sp a b x : tree sp -> listed sp a x -> listed sp b x -> a = b.
Proof.
  intros (T & _) (la & La & Ia) (lb & Lb & Ib). apply In_nth_error in Ia as (i & X). apply In_nth_error in Ib as (j & Y).
  exact (proj1 (T _ _ _ _ _ _ _ La Lb X Y)).
Qed.

Lemma below_nodup sp n : forall l, tree sp -> NoDup l -> apart sp l -> NoDup (below sp n l).
Proof.
  induction n as [|n IH]; cbn; intros l T D A; [constructor|]. apply nodup_apart; [exact D| |].
  - apply IH; [exact T|now apply nodup_flat|]. intros y y' Y Y' R.
    apply in_flat_map in Y as (p & P & K). apply in_flat_map in Y' as (p' & P' & K').
    apply listed_kids in K. apply listed_kids in K'. apply (A p p' P P').
    apply clos_trans_tn1 in R. inversion R as [z Z|z z' Z Z']; subst.
    + replace p' with y by (eapply unique_parent; eassumption). now apply t_step.
    + replace p' with z by (eapply unique_parent; eassumption). eapply t_trans; [apply t_step, K|]. now apply clos_tn1_trans.
  - intros x X Y. apply below_reached in Y as [Y|(z & Z & R)].
    + apply in_flat_map in Y as (p & P & K). apply (A p x P X). apply t_step. now apply listed_kids.
    + apply in_flat_map in Z as (p & P & K). apply (A p x P X). eapply t_trans; [apply t_step, listed_kids; exact K|exact R].
Qed.

(** ** Counting *)
Definition presentb (sp : space) (a : exguid) : bool := match get_object sp a with Some _ => true | None => false end.
Definition weigh (sp : space) (n : nat) (l : list exguid) : nat := length (filter (presentb sp) (below sp n l)).

Lemma flat_map_app {A B} (f : A -> list B) l l' : flat_map f (l ++ l') = flat_map f l ++ flat_map f l'.
Proof. induction l; cbn; [reflexivity|]. now rewrite IHl, app_assoc. Qed.
Lemma filter_app_ {A} (f : A -> bool) l l' : filter f (l ++ l') = filter f l ++ filter f l'.
Proof. induction l as [|a l IH]; cbn; [reflexivity|]. destruct (f a); cbn; now rewrite IH. Qed.

Lemma weigh_app sp n : forall l l', weigh sp n (l ++ l') = (weigh sp n l + weigh sp n l')%nat.
Proof.
  unfold weigh. induction n as [|n IH]; cbn; intros l l'; [reflexivity|].
  rewrite flat_map_app, !filter_app_, !app_length, !IH. lia.
Qed.
Lemma weigh_grows sp n : forall l, (weigh sp n l <= weigh sp (S n) l)%nat.
Proof.
  unfold weigh. induction n as [|n IH]; intro l; [cbn; lia|]. specialize (IH (flat_map (kids sp) l)).
  cbn [below] in IH |- *. rewrite !filter_app_, !app_length in *. lia.
Qed.
Lemma weigh_mono sp n m l : (n <= m)%nat -> (weigh sp n l <= weigh sp m l)%nat.
Proof. induction 1; [lia|]. pose proof (weigh_grows sp m l). lia. Qed.
Lemma weigh_one sp n a o : get_object sp a = Some o -> weigh sp (S n) [a] = S (weigh sp n (kids sp a)).
Proof.
  intro Ho. unfold weigh. cbn [below flat_map app]. rewrite app_nil_r. cbn [filter]. unfold presentb at 1. now rewrite Ho.
Qed.

Lemma weigh_bound sp n l m : tree sp -> NoDup l -> apart sp l -> (m <= weigh sp n l)%nat -> has_objects sp m.
Proof.
  intros T D A H. exists (filter (presentb sp) (below sp n l)). refine (conj _ (conj _ H)).
  - apply NoDup_filter. now apply below_nodup.
  - intros x X. apply filter_In in X as (_ & X). unfold presentb in X. destruct (get_object sp x) as [o|]; [now exists o|discriminate].
Qed.
Lemma weigh_root sp n a m : tree sp -> (m <= weigh sp n [a])%nat -> has_objects sp m.
Proof.
  intros T. apply weigh_bound; [exact T|repeat constructor; intros []|]. intros x y [<-|[]] [<-|[]]. apply (proj2 T).
Qed.

Lemma weigh_all {B} sp n (size : B -> nat) l ys :
  Forall2 (fun a y => (size y <= weigh sp n [a])%nat) l ys -> (total size ys <= weigh sp n l)%nat.
Proof.
  induction 1 as [|a y l ys H _ IH]; cbn [total]; [lia|]. change (a :: l) with ([a] ++ l). rewrite weigh_app. lia.
Qed.

Lemma forall2_impl {A B} (R S : A -> B -> Prop) l l' : (forall a b, R a b -> S a b) -> Forall2 R l l' -> Forall2 S l l'.
Proof. intros H F. induction F; constructor; auto. Qed.

Ltac ok := repeat match goal with
  | H : rbind _ _ = Ok _ |- _ => apply bind_ok in H as (? & ? & H)
  | H : need_object _ _ = Ok _ |- _ => apply need_ok in H
  | H : Ok _ = Ok _ |- _ => injection H as <-
  | H : map_res _ _ = Ok _ |- _ => apply NodesProofs.map_res_ok in H
  end.

Lemma kids_group sp a o d : get_object sp a = Some o -> outline_group_node_parse o = Ok d -> kids sp a = gr_children d.
Proof. intros Ho H. apply lists_kids. exists o. split; [exact Ho|]. apply group_ok in H. do 3 right. left. eauto. Qed.
Lemma kids_element sp a o d : get_object sp a = Some o -> outline_element_node_parse o = Ok d -> kids sp a = oe_children d ++ oe_contents d.
Proof. intros Ho H. apply lists_kids. exists o. split; [exact Ho|]. apply element_ok in H. do 4 right. left. eauto. Qed.
Lemma kids_table sp a o d : get_object sp a = Some o -> table_node_parse o = Ok d -> kids sp a = ta_rows d.
Proof. intros Ho H. apply lists_kids. exists o. split; [exact Ho|]. apply table_ok in H. do 5 right. left. eauto. Qed.
Lemma kids_row sp a o d : get_object sp a = Some o -> table_row_node_parse o = Ok d -> kids sp a = ro_cells d.
Proof. intros Ho H. apply lists_kids. exists o. split; [exact Ho|]. apply row_ok in H. do 6 right. left. eauto. Qed.
Lemma kids_cell sp a o d : get_object sp a = Some o -> table_cell_node_parse o = Ok d -> kids sp a = ce_contents d.
Proof. intros Ho H. apply lists_kids. exists o. split; [exact Ho|]. apply cell_ok in H. do 7 right. eauto. Qed.
Lemma kids_outline sp a o d : get_object sp a = Some o -> outline_node_parse o = Ok d -> kids sp a = ou_children d.
Proof. intros Ho H. apply lists_kids. exists o. split; [exact Ho|]. apply outline_ok in H. do 2 right. left. eauto. Qed.
Lemma kids_title sp a o d : get_object sp a = Some o -> title_node_parse o = Ok d -> kids sp a = tn_children d.
Proof. intros Ho H. apply lists_kids. exists o. split; [exact Ho|]. apply title_ok in H. right. left. eauto. Qed.
Lemma kids_page sp a o d : get_object sp a = Some o -> page_node_parse o = Ok d ->
  kids sp a = match pd_title d with Some t => [t] | None => [] end ++ pd_content d.
Proof. intros Ho H. apply lists_kids. exists o. split; [exact Ho|]. apply page_ok in H. left. eauto. Qed.

Lemma sizes sp f :
  (forall id i, parse_outline_item f sp id = Ok i -> (item_size i <= weigh sp (3 * f) [id])%nat) /\
  (forall id e, parse_outline_element f sp id = Ok e -> (element_size e <= weigh sp (3 * f) [id])%nat) /\
  (forall id c, parse_content f sp id = Ok c -> (content_size c <= weigh sp (3 * f) [id])%nat).
Proof.
  induction f as [|f (IHi & IHe & IHc)]; [repeat split; discriminate|]. replace (3 * S f)%nat with (S (S (S (3 * f)))) by lia.
  set (n := (3 * f)%nat) in *. refine (conj _ (conj _ _)); intros id x H; cbn [parse_outline_item parse_outline_element parse_content] in H.
  - apply bind_ok in H as (o & Ho & H). apply need_ok in Ho. apply bind_ok in H as (k & _ & H).
    destruct k; try discriminate H; ok.
    + cbn [item_size]. eapply Nat.le_trans; [eapply IHe; eassumption|]. apply weigh_mono. lia.
    + rewrite (weigh_one sp _ id o Ho). assert (E : Some o = Some x0) by congruence. injection E as <-.
      rewrite (kids_group sp id o x1) by assumption. cbn [item_size]. apply le_n_S.
      eapply Nat.le_trans; [|apply (weigh_mono sp n); lia]. apply weigh_all. eapply forall2_impl; [|eassumption]. exact IHi.
  - ok. rewrite (weigh_one sp _ id x0) by assumption. rewrite (kids_element sp id x0 x1) by assumption. cbn [element_size].
    rewrite weigh_app. apply le_n_S. apply Nat.add_le_mono; (eapply Nat.le_trans; [|apply (weigh_mono sp n); lia]);
    apply weigh_all; (eapply forall2_impl; [|eassumption]); [exact IHi|exact IHc].
  - apply bind_ok in H as (o & Ho & H). apply need_ok in Ho. apply bind_ok in H as (k & _ & H).
    assert (One : (1 <= weigh sp (S (S (S n))) [id])%nat) by (rewrite (weigh_one sp _ id o Ho); lia).
    destruct k; try (ok; exact One). apply bind_ok in H as (t & H & E). injection E as <-. unfold parse_table in H.
    apply bind_ok in H as (o' & Ho' & H). apply need_ok in Ho'. assert (E : Some o = Some o') by congruence. injection E as <-.
    apply bind_ok in H as (d & Hd & H). apply bind_ok in H as (rows & Hr & H). apply bind_ok in H as (tags & _ & H). injection H as <-.
    apply NodesProofs.map_res_ok in Hr. cbn [content_size table_size].
    rewrite (weigh_one sp _ id o Ho), (kids_table sp id o d Ho Hd). apply le_n_S.
    apply weigh_all. eapply forall2_impl; [|exact Hr]. clear - IHe. intros r y H. unfold parse_row in H.
    apply bind_ok in H as (o & Ho & H). apply need_ok in Ho. apply bind_ok in H as (d & Hd & H). apply bind_ok in H as (cs & Hc & H).
    injection H as <-. apply NodesProofs.map_res_ok in Hc. cbn [row_size].
    rewrite (weigh_one sp _ r o Ho), (kids_row sp r o d Ho Hd). apply le_n_S.
    apply weigh_all. eapply forall2_impl; [|exact Hc]. clear - IHe. intros c y H. unfold parse_cell in H.
    apply bind_ok in H as (o & Ho & H). apply need_ok in Ho. apply bind_ok in H as (d & Hd & H). apply bind_ok in H as (es & He & H).
    injection H as <-. apply NodesProofs.map_res_ok in He. cbn [cell_size].
    rewrite (weigh_one sp _ c o Ho), (kids_cell sp c o d Ho Hd). apply le_n_S.
    apply weigh_all. eapply forall2_impl; [|exact He]. exact IHe.
Qed.

Lemma outline_sizes sp f id x : parse_outline f sp id = Ok x -> (outline_size x <= weigh sp (S (3 * f)) [id])%nat.
Proof.
  unfold parse_outline. intro H. apply bind_ok in H as (o & Ho & H). apply need_ok in Ho. apply bind_ok in H as (d & Hd & H).
  apply bind_ok in H as (l & Hl & H). injection H as <-. apply NodesProofs.map_res_ok in Hl. unfold outline_size. cbn [ol_items].
  rewrite (weigh_one sp _ id o Ho), (kids_outline sp id o d Ho Hd). apply le_n_S. apply weigh_all.
  eapply forall2_impl; [|exact Hl]. apply sizes.
Qed.

Lemma item_bound sp f id i : tree sp -> parse_outline_item f sp id = Ok i -> has_objects sp (item_size i).
Proof. intros T H. eapply weigh_root; [exact T|]. apply (proj1 (sizes sp f)), H. Qed.

Lemma page_bound sp f p : tree sp -> parse_page f sp = Ok p -> has_objects sp (page_size p).
Proof.
  intros T H. unfold parse_page in H. apply bind_ok in H as (m & _ & H). apply bind_ok in H as (id & _ & H).
  apply bind_ok in H as (d & Hd & H). apply bind_ok in H as (t & Ht & H). apply bind_ok in H as (cs & Hc & H). injection H as <-.
  unfold page_node in Hd. apply bind_ok in Hd as (o & Ho & Hd). apply need_ok in Ho. apply NodesProofs.map_res_ok in Hc.
  apply (weigh_root sp (S (S (S (3 * f)))) id _ T).
  rewrite (weigh_one sp _ id o Ho), (kids_page sp id o d Ho Hd), weigh_app. unfold page_size. cbn [pg_title pg_contents].
  apply le_n_S. apply Nat.add_le_mono.
  - destruct (pd_title d) as [tid|]; cbn [opt_map_res] in Ht; [|injection Ht as <-; lia].
    apply bind_ok in Ht as (x & Ht & E). injection E as <-. unfold parse_title in Ht.
    apply bind_ok in Ht as (o' & Ho' & Ht). apply need_ok in Ho'. apply bind_ok in Ht as (d' & Hd' & Ht).
    apply bind_ok in Ht as (os & Hos & Ht). injection Ht as <-. apply NodesProofs.map_res_ok in Hos.
    rewrite (weigh_one sp _ tid o' Ho'), (kids_title sp tid o' d' Ho' Hd'). unfold title_size. cbn [ti_contents].
    apply le_n_S. apply weigh_all. eapply forall2_impl; [|exact Hos]. apply outline_sizes.
  - eapply Nat.le_trans; [|apply (weigh_mono sp (S (3 * f))); lia]. apply weigh_all. eapply forall2_impl; [|exact Hc].
    clear. intros a c H. unfold parse_page_content in H. apply bind_ok in H as (o & Ho & H). apply need_ok in Ho.
    assert (One : (1 <= weigh sp (S (3 * f)) [a])%nat) by (rewrite (weigh_one sp _ a o Ho); lia).
    apply bind_ok in H as (k & _ & H). destruct k; try (ok; exact One).
    apply bind_ok in H as (x & H & E). injection E as <-. cbn [page_content_size]. now apply outline_sizes.
Qed.

Lemma section_bound h fuel d file st s ps p : parse_section_buffer h fuel d file = Ok s -> open_store h fuel d = Ok st ->
  In ps (se_page_series s) -> In p ps ->
  exists cell sp, object_space st cell = Some sp /\ page_is sp p /\ (tree sp -> has_objects sp (page_size p)).
Proof.
  unfold parse_section_buffer. intros H E I1 I2. rewrite E in H. cbn [rbind] in H. destruct (st_schema st =? section_schema); [|discriminate].
  unfold parse_section in H. apply bind_ok in H as (m & _ & H). apply bind_ok in H as (c & _ & H). apply bind_ok in H as (ss & Hs & H). injection H as <-.
  cbn [se_page_series] in I1. apply NodesProofs.map_res_ok in Hs.
  assert (K : exists id, parse_page_series fuel st id = Ok ps).
  { clear - Hs I1. induction Hs as [|x y l l' R _ IH]; [contradiction|]. destruct I1 as [<-|I1]; [now exists x|now apply IH]. }
  destruct K as (id & K). unfold parse_page_series in K. apply bind_ok in K as (o & _ & K). apply bind_ok in K as (d' & _ & K). apply NodesProofs.map_res_ok in K.
  assert (J : exists cell, (let! sp := ok_or MalformedOneNoteData (object_space st cell) in parse_page fuel sp) = Ok p).
  { clear - K I2. induction K as [|x y l l' R _ IH]; [contradiction|]. destruct I2 as [<-|I2]; [now exists x|now apply IH]. }
  destruct J as (cell & J). apply bind_ok in J as (sp & Esp & J). unfold ok_or in Esp. destruct (object_space st cell) as [sp'|] eqn:Es; [|discriminate]. injection Esp as <-.
  exists cell, sp'. refine (conj Es (conj (proj1 (page_settles sp' p) fuel J) _)). intro T. now apply (page_bound sp' fuel p T).
Qed.

(** Trees, by computation: no object is listed twice, and parts have greater ranks. *)
Lemma kids_at sp a x : In x (kids sp a) -> In a (map fst (sp_objects sp)).
Proof.
  unfold kids, get_object. destruct (alookup exguid_eqb a (sp_objects sp)) as [o|] eqn:E; [|contradiction]. intros _.
  apply (alookup_in exguid_eqb PackageRT.exguid_eqb_eq) in E. now apply (in_map fst) in E.
Qed.
Lemma nodup_app_apart {A} (l l' : list A) x : NoDup (l ++ l') -> In x l -> In x l' -> False.
Proof. induction l as [|a l IH]; cbn; intros D I J; [contradiction|]. inversion D; subst. destruct I as [<-|I]; [apply H1, in_app_iff; now right|now apply IH]. Qed.
Lemma tree_ranked sp (r : exguid -> nat) : NoDup (flat_map (kids sp) (map fst (sp_objects sp))) ->
  (forall a, In a (map fst (sp_objects sp)) -> forall b, In b (kids sp a) -> (r a < r b)%nat) -> tree sp.
Proof.
  intros D R. split.
  - intros a b la lb i j x La Lb X Y. apply lists_kids in La as <-. apply lists_kids in Lb as <-.
    pose proof (nth_error_In _ _ X) as Ix. pose proof (nth_error_In _ _ Y) as Iy. pose proof (kids_at _ _ _ Ix) as Ia. pose proof (kids_at _ _ _ Iy) as Ib.
    assert (E : a = b).
    { clear R X Y. revert D Ia Ib. induction (map fst (sp_objects sp)) as [|c l IH]; cbn; intros D; [contradiction|].
      assert (D2 : NoDup (flat_map (kids sp) l)) by (clear - D; induction (kids sp c); [exact D|apply IHl0; now inversion D]).
      intros [->|Ia] [->|Ib]; [reflexivity|exfalso|exfalso|now apply IH].
      - eapply nodup_app_apart; [exact D|exact Ix|]. apply in_flat_map. eauto.
      - eapply nodup_app_apart; [exact D|exact Iy|]. apply in_flat_map. eauto. }
    split; [exact E|]. subst b. clear R Iy Ib. revert D Ia. induction (map fst (sp_objects sp)) as [|c l IH]; cbn; intros D; [contradiction|].
    intros [->|Ia].
    + assert (D2 : NoDup (kids sp a)) by (clear - D; induction (kids sp a) as [|y k IH]; [constructor|cbn in D; inversion D; subst; constructor; [rewrite in_app_iff in *; tauto|now apply IH]]).
      eapply NoDup_nth_error; [exact D2|now apply nth_error_Some; rewrite X|congruence].
    + apply IH; [|exact Ia]. clear - D. induction (kids sp c); [exact D|apply IHl0; now inversion D].
  - assert (Q : forall a b, clos_trans _ (listed sp) a b -> (r a < r b)%nat).
    { induction 1 as [a b H|a b c _ IH1 _ IH2]; [|lia]. apply listed_kids in H. eapply R; [eapply kids_at, H|exact H]. }
    intros a H. apply Q in H. lia.
Qed.
