(** Outlines, tables, pages and sections. *)
From Coq Require Import Lia ZifyBool ZifyNat ZifyN.
From Verif Require Import Base Codec Package PropSet PropIds Store Shapes Props Nodes Doc SpecCodec SpecValues SpecNodes
  NodesProofs NodesProofs2 NodesProofs3 SpecDoc DocProofs DocProofs2.

Lemma kind_inv n k : kind_of_jcid n = Some k -> n = kind_jcid k.
Proof.
  intros H. unfold kind_of_jcid in H. destruct n as [|p]; [discriminate H|].
  do 22 (try (destruct p as [p|p|]; try discriminate H; try (injection H as <-; reflexivity))).
Qed.
Lemma kind_jcid_ok k : kind_of_jcid (kind_jcid k) = Some k.
Proof. now destruct k. Qed.
Lemma known_ok n : In n known_kinds <-> exists k, kind_of_jcid n = Some k.
Proof.
  split.
  - intros H. unfold known_kinds in H. repeat (destruct H as [<-|H]; [eexists; reflexivity|]). destruct H.
  - intros (k & H). apply kind_inv in H as ->. destruct k; cbn; repeat (try (left; reflexivity); right).
Qed.
Lemma need_kind_ok o k : need_kind o = Ok k <-> ob_jcid o = kind_jcid k.
Proof.
  unfold need_kind. split.
  - destruct (kind_of_jcid (ob_jcid o)) as [k'|] eqn:E; [|discriminate]. intros [= <-]. now apply kind_inv.
  - intros ->. now rewrite kind_jcid_ok.
Qed.

(** ** Sizes of results, for the fuel they need *)
Fixpoint size_item (x : outline_item) : nat :=
  match x with
  | ItemGroup _ l => S (list_sum (map size_item l))
  | ItemElement e => S (size_element e)
  end
with size_element (e : outline_element) : nat :=
  match e with OutlineElement cs _ _ _ l => S (list_sum (map size_content cs) + list_sum (map size_item l)) end
with size_content (c : content) : nat :=
  match c with CoTable t => S (size_table t) | _ => 1%nat end
with size_table (t : table) : nat :=
  match t with Table _ _ rs _ _ _ _ _ _ => list_sum (map size_row rs) end
with size_row (r : table_row) : nat :=
  match r with TableRow cs => list_sum (map size_cell cs) end
with size_cell (c : table_cell) : nat :=
  match c with TableCell es _ _ _ => list_sum (map size_element es) end.

Lemma sum_in {A} (f : A -> nat) l x : In x l -> (f x <= list_sum (map f l))%nat.
Proof.
  induction l as [|a l IH]; [intros []|]. change (list_sum (map f (a :: l))) with (f a + list_sum (map f l))%nat.
  intros [->|H]; [lia|]. specialize (IH H). lia.
Qed.
Lemma run_all {A B} (f : A -> res B) (R : A -> B -> Prop) l ys :
  Forall2 R l ys -> (forall a b, In b ys -> R a b -> f a = Ok b) -> map_res f l = Ok ys.
Proof.
  intros H Hf. apply map_res_ok. induction H as [|a b l ys Hab H IH]; constructor.
  - apply Hf; [now left|exact Hab].
  - apply IH. intros. apply Hf; [now right|assumption].
Qed.
Lemma all2_mono {A B} (R S : A -> B -> Prop) l m : (forall a b, R a b -> S a b) -> Forall2 R l m -> Forall2 S l m.
Proof. intros H F. induction F; constructor; auto. Qed.

Lemma jcid_kind o n k : ob_jcid o = n -> kind_jcid k = n -> need_kind o = Ok k.
Proof. intros H E. apply need_kind_ok. congruence. Qed.

(** ** What the parsers accept *)
Lemma outline_sound sp f :
  (forall id x, parse_outline_item f sp id = Ok x -> item_is sp id x) /\
  (forall id x, parse_outline_element f sp id = Ok x -> element_is sp id x) /\
  (forall id x, parse_content f sp id = Ok x -> content_is sp id x).
Proof.
  induction f as [|f (IHi & IHe & IHc)]; [repeat split; intros id x [=]|].
  split; [|split]; intros id x H; cbn in H.
  - apply found_ok in H as (o & Ho & H). apply bind_ok in H as (k & Hk & H).
    destruct k; try discriminate H.
    + apply bind_ok in H as (e & He & [= <-]). apply is_element. now apply IHe.
    + apply found_ok in H as (o' & Ho' & H). rewrite Ho in Ho'. injection Ho' as <-.
      apply bind_ok in H as (d & Hd & H). apply bind_ok in H as (l & Hl & [= <-]).
      eapply is_group; [exact Ho|apply group_ok; exact Hd|reflexivity|].
      apply map_res_ok in Hl. now apply (all2_mono _ _ _ _ IHi).
  - apply found_ok in H as (o & Ho & H). apply bind_ok in H as (d & Hd & H).
    apply bind_ok in H as (cs & Hc & H). apply bind_ok in H as (ks & Hks & H).
    apply bind_ok in H as (ls & Hl & [= <-]).
    eapply is_outline_element; [exact Ho|apply element_ok; exact Hd|reflexivity|reflexivity| | |].
    + apply map_res_ok in Hks. now apply (all2_mono _ _ _ _ IHc).
    + now apply (map_ok _ _ _ _ (list_is_ok sp)) in Hl.
    + apply map_res_ok in Hc. now apply (all2_mono _ _ _ _ IHi).
  - apply found_ok in H as (o & Ho & H). apply bind_ok in H as (k & Hk & H).
    apply need_kind_ok in Hk.
    assert (Hu : Ok CoUnknown = Ok x -> kind_jcid k <> 0x6000E -> kind_jcid k <> 0x60011 -> kind_jcid k <> 0x60035 ->
                 kind_jcid k <> 0x60014 -> kind_jcid k <> 0x60022 -> content_is sp id x).
    { intros [= <-] N1 N2 N3 N4 N5. apply is_unknown. exists o. split; [exact Ho|]. rewrite Hk. split.
      - apply known_ok. exists k. apply kind_jcid_ok.
      - cbn. intros E. repeat (destruct E as [E|E]; [congruence|]). destruct E. }
    destruct k; try (apply Hu; [exact H|discriminate..]); clear Hu.
    + apply bind_ok in H as (y & Hy & [= <-]). now apply is_file, file_is_ok.
    + apply bind_ok in H as (y & Hy & [= <-]). now apply is_image, image_is_ok.
    + apply bind_ok in H as (y & Hy & [= <-]). now apply is_text, text_is_ok.
    + apply bind_ok in H as (y & Hy & [= <-]). apply is_table_content.
      unfold parse_table in Hy. apply found_ok in Hy as (o' & Ho' & Hy). apply bind_ok in Hy as (d & Hd & Hy).
      apply bind_ok in Hy as (rs & Hr & Hy). apply bind_ok in Hy as (ts & Ht & [= <-]).
      eapply is_table; try reflexivity; [exact Ho'|apply table_ok; exact Hd| |now apply note_tags_ok].
      apply map_res_ok in Hr. revert Hr. apply all2_mono. intros rid r Hr. unfold parse_row in Hr.
      apply found_ok in Hr as (ro & Hro & Hr). apply bind_ok in Hr as (rd & Hrd & Hr).
      apply bind_ok in Hr as (cs & Hcs & [= <-]). eapply is_row; [exact Hro|apply row_ok; exact Hrd|].
      apply map_res_ok in Hcs. revert Hcs. apply all2_mono. intros cid c Hc. unfold parse_cell in Hc.
      apply found_ok in Hc as (co & Hco & Hc). apply bind_ok in Hc as (cd & Hcd & Hc).
      apply bind_ok in Hc as (es & Hes & [= <-]). eapply is_cell; try reflexivity; [exact Hco|apply cell_ok; exact Hcd|].
      apply map_res_ok in Hes. now apply (all2_mono _ _ _ _ IHe).
    + apply bind_ok in H as (y & Hy & [= <-]). now apply is_ink, ink_is_ok.
Qed.

Lemma found_jcid sp id o n (P : object -> Prop) : found sp id P -> (forall o, P o -> ob_jcid o = n) ->
  get_object sp id = Some o -> ob_jcid o = n.
Proof. intros (o' & Ho & Hp) H E. rewrite E in Ho. injection Ho as <-. now apply H. Qed.

Lemma outline_complete sp f :
  (forall id x, (size_item x <= f)%nat -> item_is sp id x -> parse_outline_item f sp id = Ok x) /\
  (forall id x, (size_element x <= f)%nat -> element_is sp id x -> parse_outline_element f sp id = Ok x) /\
  (forall id x, (size_content x <= f)%nat -> content_is sp id x -> parse_content f sp id = Ok x).
Proof.
  induction f as [|f (IHi & IHe & IHc)].
  { repeat split; intros id x H; destruct x; cbn in H; lia. }
  split; [|split]; intros id x Hs H.
  - destruct H as [id o d level items Ho Hd -> Hl|id e He].
    + cbn [parse_outline_item]. apply need_ok in Ho. rewrite Ho. cbn [rbind].
      assert (Hk : need_kind o = Ok K_OutlineGroup) by (apply (jcid_kind o 0x60019); [apply Hd|reflexivity]).
      rewrite Hk. cbn [rbind]. apply group_ok in Hd. rewrite Hd. cbn [rbind].
      rewrite (run_all (parse_outline_item f sp) (item_is sp) (gr_children d) items Hl); [reflexivity|].
      intros a b Hb Hab. apply IHi; [|exact Hab]. pose proof (sum_in size_item items b Hb). cbn in Hs. lia.
    + cbn [parse_outline_item]. cbn in Hs. assert (He' := He). apply IHe in He'; [|lia].
      destruct He as [id o d contents lists spacing level items Ho Hd _ _ _ _ _].
      apply need_ok in Ho. rewrite Ho. cbn [rbind].
      assert (Hk : need_kind o = Ok K_OutlineElementNode) by (apply (jcid_kind o 0x6000D); [apply Hd|reflexivity]).
      rewrite Hk. cbn [rbind]. rewrite He'. reflexivity.
  - destruct H as [id o d contents lists spacing level items Ho Hd -> -> Hc Hl Hi].
    cbn [parse_outline_element]. apply need_ok in Ho. rewrite Ho. cbn [rbind]. apply element_ok in Hd. rewrite Hd. cbn [rbind].
    cbn in Hs.
    rewrite (run_all (parse_outline_item f sp) (item_is sp) _ items Hi).
    2:{ intros a b Hb Hab. apply IHi; [|exact Hab]. pose proof (sum_in size_item items b Hb). lia. }
    cbn [rbind]. rewrite (run_all (parse_content f sp) (content_is sp) _ contents Hc).
    2:{ intros a b Hb Hab. apply IHc; [|exact Hab]. pose proof (sum_in size_content contents b Hb). lia. }
    cbn [rbind]. apply (map_ok _ _ _ _ (list_is_ok sp)) in Hl. rewrite Hl. reflexivity.
  - destruct H as [id t H|id g H|id g H|id i H|id H|id t H]; cbn [parse_content].
    + assert (Hp := H). apply text_is_ok in Hp. destruct H as (o & Ho & H). apply need_ok in Ho. rewrite Ho. cbn [rbind].
      rewrite (jcid_kind o 0x6000E K_RichTextNode); [|destruct H as (? & ? & ? & ? & ? & Hd & _); apply Hd|reflexivity].
      cbn [rbind]. rewrite Hp. reflexivity.
    + assert (Hp := H). apply image_is_ok in Hp. destruct H as (o & Ho & H). apply need_ok in Ho. rewrite Ho. cbn [rbind].
      rewrite (jcid_kind o 0x60011 K_ImageNode); [|destruct H as (? & Hd & _); apply Hd|reflexivity].
      cbn [rbind]. rewrite Hp. reflexivity.
    + assert (Hp := H). apply file_is_ok in Hp. destruct H as (o & Ho & H). apply need_ok in Ho. rewrite Ho. cbn [rbind].
      rewrite (jcid_kind o 0x60035 K_EmbeddedFileNode); [|destruct H as (? & Hd & _); apply Hd|reflexivity].
      cbn [rbind]. rewrite Hp. reflexivity.
    + assert (Hp := H). apply ink_is_ok in Hp. destruct H as (o & Ho & H). apply need_ok in Ho. rewrite Ho. cbn [rbind].
      rewrite (jcid_kind o 0x60014 K_InkContainer); [|destruct H as (? & Hd & _); apply Hd|reflexivity].
      cbn [rbind]. rewrite Hp. reflexivity.
    + destruct H as (o & Ho & Hk & Hn). apply need_ok in Ho. rewrite Ho. cbn [rbind].
      apply known_ok in Hk as (k & Hk). apply kind_inv in Hk. rewrite (proj2 (need_kind_ok o k) Hk). cbn [rbind].
      rewrite Hk in Hn. cbn [In] in Hn. destruct k; try reflexivity; exfalso; apply Hn; auto 10.
    + destruct H as [id o d rows cols rs locked widths borders ap aself tgs Ho Hd -> -> -> -> -> -> -> Hr Ht].
      assert (Ho' := Ho). apply need_ok in Ho'. rewrite Ho'. cbn [rbind].
      rewrite (jcid_kind o 0x60022 K_TableNode); [|apply Hd|reflexivity]. cbn [rbind]. unfold parse_table.
      rewrite Ho'. cbn [rbind]. apply table_ok in Hd. rewrite Hd. cbn [rbind]. cbn in Hs.
      rewrite (run_all (fun i => parse_row (parse_outline_element f sp) i sp) (row_is sp) _ rs Hr).
      * cbn [rbind]. apply note_tags_ok in Ht. rewrite Ht. reflexivity.
      * intros rid r Hin Hrow. pose proof (sum_in size_row rs r Hin) as Sr.
        destruct Hrow as [rid ro rd cs Hro Hrd Hcs]. unfold parse_row. apply need_ok in Hro. rewrite Hro. cbn [rbind].
        apply row_ok in Hrd. rewrite Hrd. cbn [rbind].
        rewrite (run_all (fun i => parse_cell (parse_outline_element f sp) i sp) (cell_is sp) _ cs Hcs); [reflexivity|].
        intros cid c Hinc Hcell. pose proof (sum_in size_cell cs c Hinc) as Sc.
        destruct Hcell as [cid co cd es colour width indent Hco Hcd -> -> -> Hes]. unfold parse_cell.
        apply need_ok in Hco. rewrite Hco. cbn [rbind]. apply cell_ok in Hcd. rewrite Hcd. cbn [rbind].
        rewrite (run_all (parse_outline_element f sp) (element_is sp) _ es Hes); [reflexivity|].
        intros a b Hb Hab. apply IHe; [|exact Hab]. pose proof (sum_in size_element es b Hb). cbn in *. lia.
Qed.
