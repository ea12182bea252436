(** When parsing a document crashes or does not come back. *)
From Coq Require Import Lia ZifyBool ZifyNat ZifyN Relations.
From Verif Require Import Base BaseProofs Codec Package PropSet PropIds Store Shapes Props Nodes Doc SpecCodec SpecValues SpecNodes
  StoreProofs NodesProofs NodesProofs2 NodesProofs3 SpecDoc DocProofs DocProofs2 DocProofs3 DocProofs4.

(** ** How the two bad outcomes arise *)
Lemma fuel_bind {A B} (r : res A) (f : A -> res B) :
  rbind r f = OutOfFuel -> r = OutOfFuel \/ exists a, r = Ok a /\ f a = OutOfFuel.
Proof. destruct r; cbn; eauto; discriminate. Qed.
Lemma crash_bind {A B} (r : res A) (f : A -> res B) :
  rbind r f = Panic -> r = Panic \/ exists a, r = Ok a /\ f a = Panic.
Proof. destruct r; cbn; eauto; discriminate. Qed.
Lemma fuel_map {A B} (f : A -> res B) l : map_res f l = OutOfFuel -> exists a, In a l /\ f a = OutOfFuel.
Proof.
  induction l as [|a l IH]; cbn; [discriminate|]. intros H. apply fuel_bind in H as [H|(b & _ & H)]; [eauto|].
  apply fuel_bind in H as [H|(bs & _ & H)]; [|discriminate H]. apply IH in H as (x & Hx & E). eauto.
Qed.
Lemma crash_map {A B} (f : A -> res B) l : map_res f l = Panic -> exists a, In a l /\ f a = Panic.
Proof.
  induction l as [|a l IH]; cbn; [discriminate|]. intros H. apply crash_bind in H as [H|(b & _ & H)]; [eauto|].
  apply crash_bind in H as [H|(bs & _ & H)]; [|discriminate H]. apply IH in H as (x & Hx & E). eauto.
Qed.
Lemma fuel_opt {A B} (f : A -> res B) x : opt_map_res f x = OutOfFuel -> exists a, x = Some a /\ f a = OutOfFuel.
Proof. destruct x; cbn; [|discriminate]. intros H. apply fuel_bind in H as [H|(b & _ & H)]; [eauto|discriminate H]. Qed.
Lemma crash_opt {A B} (f : A -> res B) x : opt_map_res f x = Panic -> exists a, x = Some a /\ f a = Panic.
Proof. destruct x; cbn; [|discriminate]. intros H. apply crash_bind in H as [H|(b & _ & H)]; [eauto|discriminate H]. Qed.
Lemma ret_no_fuel {A} (r : res A) : returns r -> r <> OutOfFuel.
Proof. now destruct r. Qed.
Lemma ret_no_crash {A} (r : res A) : returns r -> r <> Panic.
Proof. now destruct r. Qed.
Lemma ret_need id sp : returns (need_object id sp).
Proof. apply ret_ok_or. Qed.
Lemma ret_need_kind o : returns (need_kind o).
Proof. apply ret_ok_or. Qed.

(** ** Leaves *)
Lemma ret_definition id sp : returns (note_tag_definition id sp).
Proof. apply ret_bind; [apply ret_need|]. apply tag_definition_ret. Qed.
Lemma ret_note_tags ts sp : returns (note_tags ts sp).
Proof. apply ret_map_res. intros d. apply ret_bind; [apply ret_opt_map; intros; apply ret_definition|intros; exact I]. Qed.
Lemma ret_iframe id sp : returns (parse_iframe id sp).
Proof. apply ret_bind; [apply ret_need|]. apply iframe_ret. Qed.
Lemma ret_file id sp : returns (parse_embedded_file id sp).
Proof.
  apply ret_bind; [apply ret_need|]. intros o. apply ret_bind; [apply file_node_ret|]. intros d.
  apply ret_bind; [apply ret_need|]. intros c. apply ret_bind; [apply file_container_ret|]. intros bs.
  apply ret_bind; [apply ret_note_tags|intros; exact I].
Qed.
Lemma ret_image id sp : returns (parse_image id sp).
Proof.
  apply ret_bind; [apply ret_need|]. intros o. apply ret_bind; [apply image_ret|]. intros d.
  apply ret_bind; [apply ret_opt_map; intros; apply ret_need|]. intros c.
  apply ret_bind; [apply ret_opt_map; intros; apply picture_ret|]. intros cd.
  apply ret_bind; [apply ret_map_res; intros; apply ret_iframe|]. intros es.
  apply ret_bind; [apply ret_note_tags|intros; exact I].
Qed.
Lemma ret_stroke id sp sx sy : returns (parse_ink_stroke id sp sx sy).
Proof.
  apply ret_bind; [apply ret_need|]. intros o. apply ret_bind; [apply stroke_ret|]. intros d.
  apply ret_bind; [apply ret_need|]. intros po. apply ret_bind; [apply stroke_properties_ret|]. intros p.
  apply ret_bind; [apply path_returns|intros; exact I].
Qed.
Lemma ret_drawing id sp sx sy : returns (parse_ink_data id sp sx sy).
Proof.
  apply ret_bind; [apply ret_need|]. intros o. apply ret_bind; [apply ink_node_ret|]. intros d.
  apply ret_bind; [apply ret_map_res; intros; apply ret_stroke|intros; exact I].
Qed.
Lemma ret_ink id sp : returns (parse_ink id sp).
Proof.
  apply ret_bind; [apply ret_need|]. intros o. apply ret_bind; [apply ink_container_ret|]. intros d.
  destruct (ic_ink_data d); [|exact I]. apply ret_bind; [apply ret_drawing|]. intros [ss b]. exact I.
Qed.
Lemma ret_embedded_ink id sp d : returns (parse_embedded_ink id sp d).
Proof. apply ret_bind; [apply ret_drawing|]. intros [ss b]. exact I. Qed.
Lemma ret_ink_space d : returns (parse_ink_space d).
Proof. apply ret_bind; [apply ret_ok_or|]. intros w. apply ret_bind; [apply ret_ok_or|intros; exact I]. Qed.
Lemma ret_math_object d : returns (parse_math_object d).
Proof. apply ret_bind; [apply ret_ok_or|intros; exact I]. Qed.
Lemma ret_maths ps : returns (maths_of ps).
Proof.
  apply ret_map_res. intros [run style]. destruct (sy_math_formatting style); [|exact I].
  apply ret_bind; [apply math_ret|]. intros d. apply ret_bind; [apply ret_math_object|intros; exact I].
Qed.
Lemma ret_inks ps : returns (inks_of ps).
Proof.
  apply ret_map_res. intros [run style]. destruct (sy_is_embedded_object style); [|exact I].
  apply ret_bind; [apply embedded_ink_ret|intros; exact I].
Qed.
Lemma embedded_no_fuel sp refs objs : forall i sk, embedded_objects sp refs i sk objs <> OutOfFuel.
Proof.
  induction objs as [|[ty d] objs IH]; intros i sk H; cbn in H; [discriminate H|].
  destruct ty as [t|].
  - apply fuel_bind in H as [H|(x & _ & H)].
    + destruct (t =? ink_end_of_line_blob); [discriminate H|]. destruct (t =? ink_space_blob); [|discriminate H].
      apply fuel_bind in H as [H|(e & _ & H)]; [|discriminate H]. now apply ret_no_fuel in H; [|apply ret_ink_space].
    + apply fuel_bind in H as [H|(xs & _ & H)]; [|discriminate H]. now apply IH in H.
  - apply fuel_bind in H as [H|(x & _ & H)].
    + destruct refs as [|r0 refs]; [discriminate H|]. destruct (nth_error (r0 :: refs) _); [|discriminate H].
      apply fuel_bind in H as [H|(e' & _ & H)]; [|discriminate H]. now apply ret_no_fuel in H; [|apply ret_embedded_ink].
    + apply fuel_bind in H as [H|(xs & _ & H)]; [|discriminate H]. now apply IH in H.
Qed.

Definition is_ink_run (x : option N * embedded_ink_data) : bool := match fst x with None => true | Some _ => false end.
Lemma embedded_crash sp refs objs : forall i sk, sk <= i ->
  embedded_objects sp refs i sk objs = Panic <->
  exists pre d rest out, objs = pre ++ (None, d) :: rest /\ embeds sp refs (N.to_nat (i - sk)) pre out /\
    refs <> [] /\ (N.to_nat (i - sk) + length (filter is_ink_run pre) >= length refs)%nat.
Proof.
  induction objs as [|[ty d] objs IH]; intros i sk Hle; cbn [embedded_objects].
  { split; [discriminate|]. intros ([|? ?] & ? & ? & ? & E & _); discriminate E. }
  destruct ty as [t|].
  - split.
    + intros H. apply crash_bind in H as [H|(x & Hx & H)].
      { exfalso. destruct (t =? ink_end_of_line_blob); [discriminate H|]. destruct (t =? ink_space_blob); [|discriminate H].
        apply crash_bind in H as [H|(e & _ & H)]; [|discriminate H]. now apply ret_no_crash in H; [|apply ret_ink_space]. }
      apply crash_bind in H as [H|(xs & _ & H)]; [|discriminate H].
      apply IH in H as (pre & d' & rest & out & -> & He & Hr & Hn); [|lia].
      replace (N.to_nat (i + 1 - (sk + 1))) with (N.to_nat (i - sk)) in * by lia.
      destruct (N.eqb_spec t ink_end_of_line_blob) as [->|].
      { exists ((Some ink_end_of_line_blob, d) :: pre), d', rest, (EoInkLineBreak :: out). repeat split; auto. now apply em_break. }
      destruct (N.eqb_spec t ink_space_blob) as [->|]; [|discriminate Hx].
      unfold parse_ink_space in Hx. destruct (ei_space_width d) as [w|] eqn:Hw, (ei_space_height d) as [h|] eqn:Hh; try discriminate Hx.
      exists ((Some ink_space_blob, d) :: pre), d', rest, (EoInkSpace h w :: out). repeat split; auto. now apply em_space.
    + intros ([|[ty' d0] pre] & d' & rest & out & E & He & Hr & Hn); [discriminate E|].
      injection E as <- <- ->. cbn [app].
      assert (Hn' : embedded_objects sp refs (i + 1) (sk + 1) (pre ++ (None, d') :: rest) = Panic /\
                    exists y, (if t =? ink_end_of_line_blob then Ok (Some EoInkLineBreak)
                     else if t =? ink_space_blob then let! e := parse_ink_space d in Ok (Some e)
                     else Err MalformedOneNoteFileData) = Ok y).
      { inversion He as [|k' d1 r out' He' E1 E2 E3|k' d1 h w r out' Hh Hw He' E1 E2 E3| |]; subst.
        - split; [|eexists; reflexivity]. apply IH; [lia|]. exists pre, d', rest, out'.
          replace (N.to_nat (i + 1 - (sk + 1))) with (N.to_nat (i - sk)) by lia. auto.
        - split; [|unfold parse_ink_space; rewrite Hw, Hh; eexists; reflexivity]. apply IH; [lia|]. exists pre, d', rest, out'.
          replace (N.to_nat (i + 1 - (sk + 1))) with (N.to_nat (i - sk)) by lia. auto. }
      destruct Hn' as (Hp & y & ->). cbn [rbind]. rewrite Hp. reflexivity.
  - split.
    + intros H. apply crash_bind in H as [H|(x & Hx & H)].
      { destruct refs as [|r0 refs]; [discriminate H|]. destruct (nth_error (r0 :: refs) (N.to_nat (i - sk))) as [id|] eqn:Hn.
        - exfalso. apply crash_bind in H as [H|(e & _ & H)]; [|discriminate H]. now apply ret_no_crash in H; [|apply ret_embedded_ink].
        - exists [], d, objs, []. repeat split; [constructor|discriminate|]. apply nth_error_None in Hn. cbn [filter length] in *. lia. }
      apply crash_bind in H as [H|(xs & _ & H)]; [|discriminate H].
      apply IH in H as (pre & d' & rest & out & -> & He & Hr & Hn); [|lia].
      replace (N.to_nat (i + 1 - sk)) with (S (N.to_nat (i - sk))) in * by lia.
      destruct refs as [|r0 refs]; [now destruct Hr|].
      destruct (nth_error (r0 :: refs) (N.to_nat (i - sk))) as [id|] eqn:Hid; [|discriminate Hx].
      apply bind_ok in Hx as (e & Hx & _). apply embedded_ink_object_ok in Hx as (ss & bb & Hd & ->).
      exists ((None, d) :: pre), d', rest. eexists. split; [reflexivity|]. split; [eapply em_ink; eassumption|].
      split; [discriminate|]. cbn [filter is_ink_run fst length] in *. lia.
    + intros ([|[ty' d0] pre] & d' & rest & out & E & He & Hr & Hn).
      * injection E as <- <-. destruct refs as [|r0 refs]; [now destruct Hr|].
        cbn [filter length] in Hn. destruct (nth_error (r0 :: refs) (N.to_nat (i - sk))) eqn:Hid; [|reflexivity].
        exfalso. assert (N.to_nat (i - sk) < length (r0 :: refs))%nat by (apply nth_error_Some; congruence). cbn [length] in *. lia.
      * injection E as <- <- ->. cbn [app].
        inversion He as [| | |k' d1 id ss bb r out' Hid Hd He' E1 E2 E3|k' d1 r out' Hr' He' E1 E2 E3]; subst; [|now destruct Hr].
        destruct refs as [|r0 refs]; [now destruct Hr|]. rewrite Hid.
        assert (Hp : parse_embedded_ink id sp d = Ok (EoInk (Ink ss bb (ei_offset_horiz d) (ei_offset_vert d)) (shown_box d)))
          by (apply embedded_ink_object_ok; eauto).
        rewrite Hp. cbn [rbind].
        assert (Hn' : embedded_objects sp (r0 :: refs) (i + 1) sk (pre ++ (None, d') :: rest) = Panic).
        { apply IH; [lia|]. exists pre, d', rest, out'. replace (N.to_nat (i + 1 - sk)) with (S (N.to_nat (i - sk))) by lia.
          repeat split; auto. cbn [filter is_ink_run fst length] in *. lia. }
        rewrite Hn'. reflexivity.
Qed.

(** ** Paragraphs *)
Lemma fuel_ret {A B} (r : res A) (f : A -> res B) : returns r -> rbind r f = OutOfFuel -> exists a, r = Ok a /\ f a = OutOfFuel.
Proof. intros R H. apply fuel_bind in H as [H|H]; [now apply ret_no_fuel in H|exact H]. Qed.
Lemma crash_ret {A B} (r : res A) (f : A -> res B) : returns r -> rbind r f = Panic -> exists a, r = Ok a /\ f a = Panic.
Proof. intros R H. apply crash_bind in H as [H|H]; [now apply ret_no_crash in H|exact H]. Qed.
Lemma ret_style_at sp l : returns (map_res (fun sid => let! so := need_object sid sp in style_parse so) l).
Proof. apply ret_map_res. intros. apply ret_bind; [apply ret_need|]. apply style_ret. Qed.
Lemma ret_runs o : returns (dflt [] (text_run_data_parse o)).
Proof. apply ret_dflt, runs_ret. Qed.

Lemma text_no_fuel id sp : parse_rich_text id sp <> OutOfFuel.
Proof.
  unfold parse_rich_text. intros H. apply fuel_ret in H as (o & _ & H); [|apply ret_need].
  apply fuel_ret in H as (d & _ & H); [|apply text_ret]. apply fuel_ret in H as (po & _ & H); [|apply ret_need].
  apply fuel_ret in H as (pd & _ & H); [|apply style_ret]. apply fuel_ret in H as (ss & _ & H); [|apply ret_style_at].
  apply fuel_ret in H as (rs & _ & H); [|apply ret_runs]. fold (maths_of (combine rs ss)) in H. fold (inks_of (combine rs ss)) in H.
  apply fuel_ret in H as (ms & _ & H); [|apply ret_maths]. apply fuel_ret in H as (is & _ & H); [|apply ret_inks].
  apply fuel_bind in H as [H|(es & _ & H)]; [now apply embedded_no_fuel in H|]. cbv zeta in H.
  apply fuel_ret in H as (ts & _ & H); [discriminate H|apply ret_note_tags].
Qed.

Lemma text_crash id sp : parse_rich_text id sp = Panic <-> ink_shortage sp id.
Proof.
  unfold parse_rich_text, ink_shortage, ink_count. change (fun x : option N * embedded_ink_data => match fst x with Some _ => false | None => true end) with is_ink_run. split.
  - intros H. apply crash_ret in H as (o & Ho & H); [|apply ret_need]. apply need_ok in Ho. exists o. split; [exact Ho|].
    apply crash_ret in H as (d & Hd & H); [|apply text_ret]. apply crash_ret in H as (po & Hpo & H); [|apply ret_need].
    apply crash_ret in H as (pd & Hpd & H); [|apply style_ret]. apply crash_ret in H as (ss & Hs & H); [|apply ret_style_at].
    apply crash_ret in H as (rs & Hr & H); [|apply ret_runs]. fold (maths_of (combine rs ss)) in H. fold (inks_of (combine rs ss)) in H.
    apply crash_ret in H as (ms & Hm & H); [|apply ret_maths]. apply crash_ret in H as (is & Hi & H); [|apply ret_inks].
    apply crash_bind in H as [H|(es & _ & H)].
    2:{ cbv zeta in H. apply crash_ret in H as (ts & _ & H); [discriminate H|apply ret_note_tags]. }
    apply embedded_crash in H as (pre & x & rest & out & E & He & Hn & Hl); [|lia].
    exists d, pd, ss, rs, (flatten ms), (flatten is), pre, x, rest, out. change (N.to_nat (0 - 0)) with 0%nat in *.
    split; [now apply text_ok|]. split; [exists po; split; [now apply need_ok|now apply style_ok]|].
    split; [now apply (map_ok _ _ _ _ (style_at_ok sp)) in Hs|]. split; [now apply runs_ok|].
    split; [apply maths_ok; eauto|]. split; [apply inks_ok; eauto|]. auto.
  - intros (o & Ho & d & pd & ss & rs & maths & inks & pre & x & rest & out & Hd & (po & Hpo & Hpd) & Hs & Hr & Hm & Hi & E & He & Hn & Hl).
    apply need_ok in Ho, Hpo. apply text_ok in Hd. apply style_ok in Hpd. apply (map_ok _ _ _ _ (style_at_ok sp)) in Hs.
    apply runs_ok in Hr. rewrite Ho. cbn [rbind]. rewrite Hd. cbn [rbind]. rewrite Hpo. cbn [rbind]. rewrite Hpd. cbn [rbind].
    rewrite Hs. cbn [rbind]. rewrite Hr. cbn [rbind]. fold (maths_of (combine rs ss)). fold (inks_of (combine rs ss)).
    apply maths_ok in Hm as (ms & -> & <-). apply inks_ok in Hi as (ixs & -> & Ei). cbn [rbind].
    assert (Hp : embedded_objects sp (rt_run_data_object d) 0 0 (flatten ixs) = Panic).
    { apply embedded_crash; [lia|]. exists pre, x, rest, out. change (N.to_nat (0 - 0)) with 0%nat. rewrite Ei. auto. }
    rewrite Hp. reflexivity.
Qed.

Lemma list_parse_no_fuel id sp : parse_list id sp <> OutOfFuel.
Proof.
  unfold parse_list. intros H. apply fuel_ret in H as (o & _ & H); [|apply ret_need].
  apply fuel_bind in H as [H|(d & _ & H)]; [now apply list_no_hang in H|discriminate H].
Qed.

(** ** Crashes of the whole *)
Definition crash_site (sp : space) : Prop := exists id, parse_list id sp = Panic \/ parse_rich_text id sp = Panic.
Lemma outline_crash sp f :
  (forall id, parse_outline_item f sp id = Panic -> crash_site sp) /\
  (forall id, parse_outline_element f sp id = Panic -> crash_site sp) /\
  (forall id, parse_content f sp id = Panic -> crash_site sp).
Proof.
  induction f as [|f (IHi & IHe & IHc)]; [repeat split; intros id [=]|].
  split; [|split]; intros id H; cbn in H.
  - apply crash_ret in H as (o & _ & H); [|apply ret_need]. apply crash_ret in H as (k & _ & H); [|apply ret_need_kind].
    destruct k; try discriminate H.
    + apply crash_bind in H as [H|(e & _ & H)]; [eauto|discriminate H].
    + apply crash_ret in H as (o' & _ & H); [|apply ret_need]. apply crash_ret in H as (d & _ & H); [|apply group_ret].
      apply crash_bind in H as [H|(l & _ & H)]; [|discriminate H]. apply crash_map in H as (a & _ & H). eauto.
  - apply crash_ret in H as (o & _ & H); [|apply ret_need]. apply crash_ret in H as (d & _ & H); [|apply element_ret].
    apply crash_bind in H as [H|(l & _ & H)]; [apply crash_map in H as (a & _ & H); eauto|].
    apply crash_bind in H as [H|(l' & _ & H)]; [apply crash_map in H as (a & _ & H); eauto|].
    apply crash_bind in H as [H|(l'' & _ & H)]; [|discriminate H]. apply crash_map in H as (a & _ & H). exists a. auto.
  - apply crash_ret in H as (o & _ & H); [|apply ret_need]. apply crash_ret in H as (k & _ & H); [|apply ret_need_kind].
    destruct k; try discriminate H.
    + apply crash_ret in H as (x & _ & H); [discriminate H|apply ret_file].
    + apply crash_ret in H as (x & _ & H); [discriminate H|apply ret_image].
    + apply crash_bind in H as [H|(x & _ & H)]; [exists id; auto|discriminate H].
    + apply crash_bind in H as [H|(x & _ & H)]; [|discriminate H]. unfold parse_table in H.
      apply crash_ret in H as (to & _ & H); [|apply ret_need]. apply crash_ret in H as (d & _ & H); [|apply table_ret].
      apply crash_bind in H as [H|(l & _ & H)].
      2:{ apply crash_ret in H as (ts & _ & H); [discriminate H|apply ret_note_tags]. }
      apply crash_map in H as (r & _ & H). unfold parse_row in H.
      apply crash_ret in H as (ro & _ & H); [|apply ret_need]. apply crash_ret in H as (rd & _ & H); [|apply row_ret].
      apply crash_bind in H as [H|(l & _ & H)]; [|discriminate H].
      apply crash_map in H as (c & _ & H). unfold parse_cell in H.
      apply crash_ret in H as (co & _ & H); [|apply ret_need]. apply crash_ret in H as (cd & _ & H); [|apply cell_ret].
      apply crash_bind in H as [H|(l & _ & H)]; [|discriminate H]. apply crash_map in H as (a & _ & H). eauto.
    + apply crash_ret in H as (x & _ & H); [discriminate H|apply ret_ink].
Qed.
Lemma outline_node_crash f sp id : parse_outline f sp id = Panic -> crash_site sp.
Proof.
  intros H. apply crash_ret in H as (o & _ & H); [|apply ret_need]. apply crash_ret in H as (d & _ & H); [|apply outline_ret].
  apply crash_bind in H as [H|(l & _ & H)]; [|discriminate H]. apply crash_map in H as (a & _ & H). now apply outline_crash in H.
Qed.
Lemma ret_page_metadata sp : returns (page_metadata sp).
Proof. apply ret_bind; [apply ret_ok_or|]. intros id. apply ret_bind; [apply ret_need|]. apply page_meta_ret. Qed.
Lemma ret_page_manifest sp : returns (page_manifest sp).
Proof. apply ret_bind; [apply ret_ok_or|]. intros id. apply ret_bind; [apply ret_need|]. apply manifest_ret. Qed.
Lemma ret_page_node m sp : returns (page_node m sp).
Proof. apply ret_bind; [apply ret_need|]. apply page_ret. Qed.
Lemma page_crash f sp : parse_page f sp = Panic -> crash_site sp.
Proof.
  unfold parse_page. intros H. apply crash_ret in H as (m & _ & H); [|apply ret_page_metadata].
  apply crash_ret in H as (mf & _ & H); [|apply ret_page_manifest]. apply crash_ret in H as (d & _ & H); [|apply ret_page_node].
  apply crash_bind in H as [H|(t & _ & H)].
  - apply crash_opt in H as (tid & _ & H). unfold parse_title in H. apply crash_ret in H as (o & _ & H); [|apply ret_need].
    apply crash_ret in H as (td & _ & H); [|apply title_ret]. apply crash_bind in H as [H|(l & _ & H)]; [|discriminate H].
    apply crash_map in H as (a & _ & H). now apply outline_node_crash in H.
  - apply crash_bind in H as [H|(l & _ & H)]; [|discriminate H]. apply crash_map in H as (a & _ & H).
    unfold parse_page_content in H. apply crash_ret in H as (o & _ & H); [|apply ret_need].
    apply crash_ret in H as (k & _ & H); [|apply ret_need_kind]. destruct k; try discriminate H.
    + apply crash_ret in H as (x & _ & H); [discriminate H|apply ret_file].
    + apply crash_ret in H as (x & _ & H); [discriminate H|apply ret_image].
    + apply crash_bind in H as [H|(x & _ & H)]; [|discriminate H]. now apply outline_node_crash in H.
    + apply crash_ret in H as (x & _ & H); [discriminate H|apply ret_ink].
Qed.
Lemma ret_section_metadata sp : returns (section_metadata sp).
Proof. apply ret_bind; [apply ret_ok_or|]. intros id. apply ret_bind; [apply ret_need|]. apply section_meta_ret. Qed.
Lemma ret_section_content sp : returns (section_content sp).
Proof. apply ret_bind; [apply ret_ok_or|]. intros id. apply ret_bind; [apply ret_need|]. apply section_ret. Qed.
Lemma section_crash f st file : parse_section f st file = Panic ->
  exists c sp id, object_space st c = Some sp /\ (parse_list id sp = Panic \/ parse_rich_text id sp = Panic).
Proof.
  unfold parse_section. intros H. apply crash_ret in H as (m & _ & H); [|apply ret_section_metadata].
  apply crash_ret in H as (d & _ & H); [|apply ret_section_content]. cbv zeta in H.
  apply crash_bind in H as [H|(l & _ & H)]; [|discriminate H]. apply crash_map in H as (s & _ & H).
  unfold parse_page_series in H. apply crash_ret in H as (o & _ & H); [|apply ret_need].
  apply crash_ret in H as (sd & _ & H); [|apply series_ret]. apply crash_map in H as (c & _ & H).
  apply crash_ret in H as (sp & Hsp & H); [|apply ret_ok_or]. apply some_ok in Hsp. apply page_crash in H as (id & H).
  exists c, sp, id. auto.
Qed.

(** ** Termination *)
(** A chain of [n] steps from whole to part. *)
Inductive descends (sp : space) : nat -> exguid -> Prop :=
| ds_end a : descends sp 0 a
| ds_step n a b : part sp a b -> descends sp n b -> descends sp (S n) a.

Lemma outline_fuel sp f :
  (forall id, parse_outline_item f sp id = OutOfFuel -> exists n, descends sp n id /\ (f <= 2 * n + 2)%nat) /\
  (forall id, parse_outline_element f sp id = OutOfFuel -> exists n, descends sp n id /\ (f <= 2 * n + 1)%nat) /\
  (forall id, parse_content f sp id = OutOfFuel -> f = 0%nat \/ found sp id (fun o => ob_jcid o = 0x60022) /\ exists n, descends sp n id /\ (f <= 2 * n + 1)%nat).
Proof.
  induction f as [|f (IHi & IHe & IHc)].
  { split; [|split]; intros id _; [exists 0%nat; split; [constructor|lia]..|now left]. }
  split; [|split]; intros id H; cbn in H.
  - apply fuel_ret in H as (o & Ho & H); [|apply ret_need]. apply need_ok in Ho. apply fuel_ret in H as (k & _ & H); [|apply ret_need_kind].
    destruct k; try discriminate H.
    + apply fuel_bind in H as [H|(e & _ & H)]; [|discriminate H]. apply IHe in H as (n & Hn & Hf). exists n. split; [exact Hn|lia].
    + apply fuel_ret in H as (o' & Ho' & H); [|apply ret_need]. apply need_ok in Ho'. rewrite Ho in Ho'. injection Ho' as <-.
      apply fuel_ret in H as (d & Hd & H); [|apply group_ret]. apply group_ok in Hd.
      apply fuel_bind in H as [H|(l & _ & H)]; [|discriminate H]. apply fuel_map in H as (a & Ha & H).
      apply IHi in H as (n & Hn & Hf). exists (S n). split; [|lia]. apply (ds_step _ _ _ a); [|exact Hn].
      exists o. split; [exact Ho|]. left. eauto.
  - apply fuel_ret in H as (o & Ho & H); [|apply ret_need]. apply need_ok in Ho.
    apply fuel_ret in H as (d & Hd & H); [|apply element_ret]. apply element_ok in Hd.
    apply fuel_bind in H as [H|(l & _ & H)].
    { apply fuel_map in H as (a & Ha & H). apply IHi in H as (n & Hn & Hf). exists (S n). split; [|lia].
      apply (ds_step _ _ _ a); [|exact Hn]. exists o. split; [exact Ho|]. right; left. eauto. }
    apply fuel_bind in H as [H|(l' & _ & H)].
    { apply fuel_map in H as (a & Ha & H). apply IHc in H as [->|(Ht & n & Hn & Hf)]; [exists 0%nat; split; [constructor|lia]|]. exists (S n). split; [|lia].
      apply (ds_step _ _ _ a); [|exact Hn]. exists o. split; [exact Ho|]. right; left. exists d. auto. }
    apply fuel_bind in H as [H|(l'' & _ & H)]; [|discriminate H]. apply fuel_map in H as (a & _ & H).
    now apply list_parse_no_fuel in H.
  - apply fuel_ret in H as (o & Ho & H); [|apply ret_need]. apply need_ok in Ho. apply fuel_ret in H as (k & _ & H); [|apply ret_need_kind]. right.
    destruct k; try discriminate H.
    + apply fuel_ret in H as (x & _ & H); [discriminate H|apply ret_file].
    + apply fuel_ret in H as (x & _ & H); [discriminate H|apply ret_image].
    + apply fuel_bind in H as [H|(x & _ & H)]; [now apply text_no_fuel in H|discriminate H].
    + apply fuel_bind in H as [H|(x & _ & H)]; [|discriminate H]. unfold parse_table in H.
      apply fuel_ret in H as (to & Hto & H); [|apply ret_need]. apply need_ok in Hto. rewrite Ho in Hto. injection Hto as <-.
      apply fuel_ret in H as (d & Hd & H); [|apply table_ret]. apply table_ok in Hd. split; [exists o; split; [exact Ho|apply Hd]|].
      apply fuel_bind in H as [H|(l & _ & H)].
      2:{ apply fuel_ret in H as (ts & _ & H); [discriminate H|apply ret_note_tags]. }
      apply fuel_map in H as (r & Hr & H). unfold parse_row in H.
      apply fuel_ret in H as (ro & Hro & H); [|apply ret_need]. apply need_ok in Hro.
      apply fuel_ret in H as (rd & Hrd & H); [|apply row_ret]. apply row_ok in Hrd.
      apply fuel_bind in H as [H|(l & _ & H)]; [|discriminate H].
      apply fuel_map in H as (c & Hc & H). unfold parse_cell in H.
      apply fuel_ret in H as (co & Hco & H); [|apply ret_need]. apply need_ok in Hco.
      apply fuel_ret in H as (cd & Hcd & H); [|apply cell_ret]. apply cell_ok in Hcd.
      apply fuel_bind in H as [H|(l & _ & H)]; [|discriminate H]. apply fuel_map in H as (a & Ha & H).
      apply IHe in H as (n & Hn & Hf). exists (S (S (S n))). split; [|lia].
      apply (ds_step _ _ _ r); [exists o; split; [exact Ho|]; right; right; left; eauto|].
      apply (ds_step _ _ _ c); [exists ro; split; [exact Hro|]; right; right; right; left; eauto|].
      apply (ds_step _ _ _ a); [exists co; split; [exact Hco|]; right; right; right; right; eauto|exact Hn].
    + apply fuel_ret in H as (x & _ & H); [discriminate H|apply ret_ink].
Qed.

Lemma part_found sp a b : part sp a b -> In a (map fst (sp_objects sp)).
Proof.
  intros (o & Ho & _). unfold get_object in Ho. apply (alookup_in exguid_eqb PackageRT.exguid_eqb_eq) in Ho.
  now apply (in_map fst) in Ho.
Qed.
Lemma descends_nodup sp n a : no_loop sp -> descends sp n a ->
  exists l, length l = n /\ NoDup l /\ incl l (map fst (sp_objects sp)) /\
    forall x, In x l -> x = a \/ clos_trans _ (part sp) a x.
Proof.
  intros Hl H. induction H as [a|n a b Hp H (l & Hn & Nd & Hi & Hc)].
  - exists []. repeat split; [constructor|intros x []|intros x []].
  - exists (a :: l). split; [cbn; lia|]. split; [|split].
    + constructor; [|exact Nd]. intros Ha. apply (Hl a). destruct (Hc a Ha) as [<-|Hb]; [now apply t_step|].
      eapply t_trans; [apply t_step; exact Hp|exact Hb].
    + intros x [<-|Hx]; [eapply part_found; exact Hp|now apply Hi].
    + intros x [<-|Hx]; [now left|]. right. destruct (Hc x Hx) as [->|Hb]; [now apply t_step|].
      eapply t_trans; [apply t_step; exact Hp|exact Hb].
Qed.
Lemma descends_bounded sp n a : no_loop sp -> descends sp n a -> (n <= length (sp_objects sp))%nat.
Proof.
  intros Hl H. destruct (descends_nodup _ _ _ Hl H) as (l & <- & Nd & Hi & _).
  pose proof (NoDup_incl_length Nd Hi) as L. now rewrite map_length in L.
Qed.
Lemma item_terminates sp f id : no_loop sp -> (2 * length (sp_objects sp) + 3 <= f)%nat -> parse_outline_item f sp id <> OutOfFuel.
Proof.
  intros Hl Hf H. apply outline_fuel in H as (n & Hn & Hb). pose proof (descends_bounded _ _ _ Hl Hn). lia.
Qed.
Lemma outline_terminates sp f id : no_loop sp -> (2 * length (sp_objects sp) + 3 <= f)%nat -> parse_outline f sp id <> OutOfFuel.
Proof.
  intros Hl Hf H. apply fuel_ret in H as (o & _ & H); [|apply ret_need]. apply fuel_ret in H as (d & _ & H); [|apply outline_ret].
  apply fuel_bind in H as [H|(l & _ & H)]; [|discriminate H]. apply fuel_map in H as (a & _ & H). revert H. now apply item_terminates.
Qed.
Lemma page_terminates sp f : no_loop sp -> (2 * length (sp_objects sp) + 3 <= f)%nat -> parse_page f sp <> OutOfFuel.
Proof.
  intros Hl Hf. unfold parse_page. intros H. apply fuel_ret in H as (m & _ & H); [|apply ret_page_metadata].
  apply fuel_ret in H as (mf & _ & H); [|apply ret_page_manifest]. apply fuel_ret in H as (d & _ & H); [|apply ret_page_node].
  apply fuel_bind in H as [H|(t & _ & H)].
  - apply fuel_opt in H as (tid & _ & H). unfold parse_title in H. apply fuel_ret in H as (o & _ & H); [|apply ret_need].
    apply fuel_ret in H as (td & _ & H); [|apply title_ret]. apply fuel_bind in H as [H|(l & _ & H)]; [|discriminate H].
    apply fuel_map in H as (a & _ & H). revert H. now apply outline_terminates.
  - apply fuel_bind in H as [H|(l & _ & H)]; [|discriminate H]. apply fuel_map in H as (a & _ & H).
    unfold parse_page_content in H. apply fuel_ret in H as (o & _ & H); [|apply ret_need].
    apply fuel_ret in H as (k & _ & H); [|apply ret_need_kind]. destruct k; try discriminate H.
    + apply fuel_ret in H as (x & _ & H); [discriminate H|apply ret_file].
    + apply fuel_ret in H as (x & _ & H); [discriminate H|apply ret_image].
    + apply fuel_bind in H as [H|(x & _ & H)]; [|discriminate H]. revert H. now apply outline_terminates.
    + apply fuel_ret in H as (x & _ & H); [discriminate H|apply ret_ink].
Qed.
Lemma section_terminates f st file :
  (forall c sp, object_space st c = Some sp -> no_loop sp /\ (2 * length (sp_objects sp) + 3 <= f)%nat) ->
  parse_section f st file <> OutOfFuel.
Proof.
  intros Hst. unfold parse_section. intros H. apply fuel_ret in H as (m & _ & H); [|apply ret_section_metadata].
  apply fuel_ret in H as (d & _ & H); [|apply ret_section_content]. cbv zeta in H.
  apply fuel_bind in H as [H|(l & _ & H)]; [|discriminate H]. apply fuel_map in H as (s & _ & H).
  unfold parse_page_series in H. apply fuel_ret in H as (o & _ & H); [|apply ret_need].
  apply fuel_ret in H as (sd & _ & H); [|apply series_ret]. apply fuel_map in H as (c & _ & H).
  apply fuel_ret in H as (sp & Hsp & H); [|apply ret_ok_or]. apply some_ok in Hsp. destruct (Hst c sp Hsp) as (Hl & Hf).
  revert H. now apply page_terminates.
Qed.
(** What was parsed contains no loop: every chain of parts from it is finite. *)
Definition inside (sp : space) (b a : exguid) : Prop := part sp a b.
Ltac other_jcid := match goal with H1 : ob_jcid ?o = ?a, H2 : ob_jcid ?o = ?b |- _ => rewrite H1 in H2; discriminate H2 end.
Lemma group_jcid o d : group_object o d -> ob_jcid o = 0x60019. Proof. now intros H; apply H. Qed.
Lemma element_jcid o d : element_object o d -> ob_jcid o = 0x6000D. Proof. now intros H; apply H. Qed.
Lemma table_jcid o d : table_object o d -> ob_jcid o = 0x60022. Proof. now intros H; apply H. Qed.
Lemma row_jcid o d : row_object o d -> ob_jcid o = 0x60023. Proof. now intros H; apply H. Qed.
Lemma cell_jcid o d : cell_object o d -> ob_jcid o = 0x60024. Proof. now intros H; apply H. Qed.
Ltac parts Hp Ho :=
  let o' := fresh "o" in let Ho' := fresh "Ho" in let Hx := fresh "Hx" in let Hb := fresh "Hb" in let d' := fresh "d" in
  destruct Hp as (o' & Ho' & [(d' & Hx & Hb)|[(d' & Hx & Hb)|[(d' & Hx & Hb)|[(d' & Hx & Hb)|(d' & Hx & Hb)]]]]);
  rewrite Ho in Ho'; injection Ho' as <-.
Lemma map_ok_in {A B} (f : A -> res B) l r a : map_res f l = Ok r -> In a l -> exists b, f a = Ok b.
Proof.
  revert r. induction l as [|x l IH]; intros r H Ha; [destruct Ha|]. cbn in H.
  apply bind_ok in H as (b & Hb & H). apply bind_ok in H as (bs & Hbs & _). destruct Ha as [<-|Ha]; [eauto|].
  now apply (IH bs).
Qed.
Lemma outline_acc sp f :
  (forall a x, parse_outline_item f sp a = Ok x -> Acc (inside sp) a) /\
  (forall a x, parse_outline_element f sp a = Ok x -> Acc (inside sp) a) /\
  (forall a x, parse_content f sp a = Ok x -> found sp a (fun o => ob_jcid o = 0x60022) -> Acc (inside sp) a).
Proof.
  induction f as [|f (IHi & IHe & IHc)]; [split; [|split]; intros a x [=]|].
  split; [|split]; intros a x H; cbn in H.
  - apply bind_ok in H as (o & Ho & H). apply need_ok in Ho. apply bind_ok in H as (k & Hk & H).
    destruct k; try discriminate H.
    + apply bind_ok in H as (e & He & _). now apply IHe in He.
    + apply bind_ok in H as (o' & Ho' & H). apply need_ok in Ho'. rewrite Ho in Ho'. injection Ho' as <-.
      apply bind_ok in H as (d & Hd & H). apply bind_ok in H as (l & Hl & _). constructor. intros b Hp.
      pose proof (proj1 (group_ok _ _) Hd) as Hd'. apply group_jcid in Hd'.
      parts Hp Ho; try (first [apply element_jcid in Hx|apply table_jcid in Hx|apply row_jcid in Hx|apply cell_jcid in Hx]; other_jcid).
      apply group_ok in Hx. rewrite Hd in Hx. injection Hx as <-.
      destruct (map_ok_in _ _ _ _ Hl Hb) as (y & Hy). now apply IHi in Hy.
  - apply bind_ok in H as (o & Ho & H). apply need_ok in Ho.
    apply bind_ok in H as (d & Hd & H). apply bind_ok in H as (l & Hl & H). apply bind_ok in H as (l' & Hl' & _). constructor. intros b Hp.
    pose proof (proj1 (element_ok _ _) Hd) as Hd'. apply element_jcid in Hd'.
    parts Hp Ho; try (first [apply group_jcid in Hx|apply table_jcid in Hx|apply row_jcid in Hx|apply cell_jcid in Hx]; other_jcid).
    apply element_ok in Hx. rewrite Hd in Hx. injection Hx as <-. destruct Hb as [Hb|(Hb & Ht)].
    + destruct (map_ok_in _ _ _ _ Hl Hb) as (y & Hy). now apply IHi in Hy.
    + destruct (map_ok_in _ _ _ _ Hl' Hb) as (y & Hy). now apply IHc in Hy.
  - intros (o & Ho & Ht). apply bind_ok in H as (o' & Ho' & H). apply need_ok in Ho'. rewrite Ho in Ho'. injection Ho' as <-.
    rewrite (jcid_kind o 0x60022 K_TableNode) in H; [|exact Ht|reflexivity]. cbn [rbind] in H.
    apply bind_ok in H as (t & H & _). unfold parse_table in H. apply bind_ok in H as (o' & Ho' & H). apply need_ok in Ho'. rewrite Ho in Ho'. injection Ho' as <-.
    apply bind_ok in H as (d & Hd & H). apply bind_ok in H as (l & Hl & _). constructor. intros b Hp.
    parts Hp Ho; try (first [apply group_jcid in Hx|apply element_jcid in Hx|apply row_jcid in Hx|apply cell_jcid in Hx]; other_jcid).
    apply table_ok in Hx. rewrite Hd in Hx. injection Hx as <-.
    destruct (map_ok_in _ _ _ _ Hl Hb) as (y & Hy). clear - Hy IHe. unfold parse_row in Hy.
    apply bind_ok in Hy as (o & Ho & H). apply need_ok in Ho. apply bind_ok in H as (d & Hd & H). apply bind_ok in H as (l & Hl & _).
    constructor. intros c Hp. pose proof (proj1 (row_ok _ _) Hd) as Hd'. apply row_jcid in Hd'.
    parts Hp Ho; try (first [apply group_jcid in Hx|apply element_jcid in Hx|apply table_jcid in Hx|apply cell_jcid in Hx]; other_jcid).
    apply row_ok in Hx. rewrite Hd in Hx. injection Hx as <-.
    destruct (map_ok_in _ _ _ _ Hl Hb) as (z & Hz). clear - Hz IHe. unfold parse_cell in Hz.
    apply bind_ok in Hz as (o & Ho & H). apply need_ok in Ho. apply bind_ok in H as (d & Hd & H). apply bind_ok in H as (l & Hl & _).
    constructor. intros e Hp. pose proof (proj1 (cell_ok _ _) Hd) as Hd'. apply cell_jcid in Hd'.
    parts Hp Ho; try (first [apply group_jcid in Hx|apply element_jcid in Hx|apply table_jcid in Hx|apply row_jcid in Hx]; other_jcid).
    apply cell_ok in Hx. rewrite Hd in Hx. injection Hx as <-.
    destruct (map_ok_in _ _ _ _ Hl Hb) as (w & Hw). now apply IHe in Hw.
Qed.
Lemma acc_loop {A} (R : A -> A -> Prop) a : Acc (fun b a => R a b) a -> ~ clos_trans _ R a a.
Proof.
  intros H. induction H as [a _ IH]. intros L. apply clos_trans_t1n in L.
  inversion L as [b Hb E|b c Hb Hc E]; subst; [apply (IH _ Hb); now apply t_step|].
  apply (IH b Hb). eapply t_trans; [apply clos_t1n_trans; exact Hc|now apply t_step].
Qed.
Lemma acc_reach {A} (R : A -> A -> Prop) a b : Acc (fun b a => R a b) a -> clos_trans _ R a b -> Acc (fun b a => R a b) b.
Proof. intros H L. induction L as [x y L|x y z L IH L' IH']; [now apply H|auto]. Qed.
