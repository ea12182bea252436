(** Paragraphs. *)
From Coq Require Import Lia ZifyBool ZifyNat ZifyN.
From Verif Require Import Base Codec Package PropSet PropIds Store Shapes Props Nodes Doc SpecCodec SpecValues SpecNodes
  NodesProofs NodesProofs2 NodesProofs3 SpecDoc DocProofs.

Lemma math_is_ok run m :
  (let! d := math_data_parse run in parse_math_object d) = Ok m <-> math_is run m.
Proof.
  unfold math_is. rewrite (node_ok _ _ _ _ _ math_ok). apply ex_iff. intros d. apply and_iff. intros _.
  unfold parse_math_object. fold (or_zero (md_object_type d)). fold (or_zero (md_arg_count d)).
  rewrite bind_ok. split.
  - intros (t & Ht & [= <-]). cbn. split; [|repeat split]. apply math_table_ok.
    destruct (math_object_type_of _); [now injection Ht as <-|discriminate Ht].
  - destruct m as [t a c al c0 c1 c2]. cbn. intros (Ht & -> & -> & -> & -> & -> & ->). apply math_table_ok in Ht.
    exists t. rewrite Ht. split; reflexivity.
Qed.

Lemma styled_ok d s : parse_style d = s <-> styled d s.
Proof.
  unfold parse_style, styled. split.
  - intros <-. cbn. repeat split.
  - destruct s. cbn. intros H. repeat match goal with H : _ /\ _ |- _ => destruct H end. subst. reflexivity.
Qed.

Lemma runs_ok o rs : dflt [] (text_run_data_parse o) = Ok rs <-> run_data o rs.
Proof.
  rewrite dflt_ok. unfold run_data, text_run_data_parse, get_prop, stored. change P_TextRunData with 0x40003499.
  destruct (oprops_get 0x40003499 (ob_props o)) as [v|] eqn:Hs.
  - destruct (to_property_values v) as [[i sets]|] eqn:Hv.
    + apply values_conv in Hv. cbn in Hv. subst v. cbn [rbind opt_map_res to_property_values ok_or]. split.
      * intros [H|(H & _)].
        { apply bind_ok in H as (ts & Ht & Ho); injection Ho as ->. exists i, sets. split; [reflexivity|now apply map_res_ok]. }
        { apply bind_ok in H as (ts & _ & E). discriminate E. }
      * intros (i' & s' & [= <- <-] & H). left. apply (bind_intro _ _ rs); [now apply map_res_ok|reflexivity].
    + cbn [rbind opt_map_res]. rewrite Hv. split; [intros [H|(H & _)]; discriminate H|].
      intros (i' & s' & -> & _). discriminate Hv.
  - cbn. split; [intros [E|(_ & ->)]; [discriminate E|reflexivity]|auto].
Qed.

(** Filtering with a flag is selecting. *)
Lemma selects_ok {A B} (keep : A -> bool) (f : A -> res B) R l out :
  (forall a b, f a = Ok b <-> R a b) ->
  (exists xs, map_res (fun a => if keep a then let! b := f a in Ok (Some b) else Ok None) l = Ok xs /\ flatten xs = out)
  <-> selects keep R l out.
Proof.
  intros Hf. split.
  - intros (xs & H & <-). revert xs H. induction l as [|a l IH]; intros xs H; cbn in H.
    + injection H as <-. constructor.
    + apply bind_ok in H as (x & Hx & H). apply bind_ok in H as (ys & Hy & [= <-]).
      destruct (keep a) eqn:K.
      * apply bind_ok in Hx as (b & Hb & [= <-]). cbn. apply se_keep; [exact K|now apply Hf|now apply IH].
      * injection Hx as <-. cbn. apply se_skip; [exact K|now apply IH].
  - induction 1 as [|a l out K H (xs & Hx & E)|a l b out K Hr H (xs & Hx & E)].
    + exists []. split; reflexivity.
    + exists (None :: xs). cbn. rewrite K. cbn. rewrite Hx. cbn. split; [reflexivity|exact E].
    + exists (Some b :: xs). cbn. rewrite K. apply Hf in Hr. rewrite Hr. cbn. rewrite Hx. cbn. split; [reflexivity|].
      now rewrite <- E.
Qed.

Lemma shown_box_ok d :
  option_map (fun '(((x, y), height), width) => StoredBox x y height width)
    (ozip (ozip (ozip (ei_start_x d) (ei_start_y d)) (ei_height d)) (ei_width d)) = shown_box d.
Proof. unfold shown_box. destruct (ei_start_x d), (ei_start_y d), (ei_height d), (ei_width d); reflexivity. Qed.

Lemma embedded_ink_object_ok sp id d e :
  parse_embedded_ink id sp d = Ok e <-> exists ss bb, drawing_is sp None None id ss bb /\
    e = EoInk (Ink ss bb (ei_offset_horiz d) (ei_offset_vert d)) (shown_box d).
Proof.
  unfold parse_embedded_ink. rewrite bind_ok. rewrite shown_box_ok. split.
  - intros ([ss bb] & H & [= <-]). exists ss, bb. split; [now apply drawing_is_ok|reflexivity].
  - intros (ss & bb & H & ->). exists (ss, bb). split; [now apply drawing_is_ok|reflexivity].
Qed.

Lemma embeds_ok sp refs objs : forall i skipped k out, skipped <= i -> N.to_nat (i - skipped) = k ->
  (exists xs, embedded_objects sp refs i skipped objs = Ok xs /\ flatten xs = out) <-> embeds sp refs k objs out.
Proof.
  induction objs as [|[ty d] objs IH]; intros i sk k out Hle Hk; cbn [embedded_objects].
  { split; [intros (xs & [= <-] & <-); constructor|]. intros H. inversion H; subst. exists []. auto. }
  destruct ty as [t|].
  - split.
    + intros (xs & H & <-). apply bind_ok in H as (x & Hx & H). apply bind_ok in H as (ys & Hy & [= <-]).
      assert (E : embeds sp refs k objs (flatten ys)) by (apply (IH (i + 1) (sk + 1) k (flatten ys)); [lia|lia|eauto]).
      destruct (N.eqb_spec t ink_end_of_line_blob) as [->|].
      { injection Hx as <-. cbn. now apply em_break. }
      destruct (N.eqb_spec t ink_space_blob) as [->|]; [|discriminate Hx].
      unfold parse_ink_space in Hx. destruct (ei_space_width d) eqn:Hw, (ei_space_height d) eqn:Hh; try discriminate Hx.
      injection Hx as <-. cbn. now apply em_space.
    + intros H. inversion H as [|k' d' r out' He E1 E2 E3|k' d' h w r out' Hh Hw He E1 E2 E3| |]; subst.
      * destruct (proj2 (IH (i + 1) (sk + 1) (N.to_nat (i - sk)) out' ltac:(lia) ltac:(lia)) He) as (xs & Hx & <-).
        exists (Some EoInkLineBreak :: xs). cbn. rewrite Hx. split; reflexivity.
      * destruct (proj2 (IH (i + 1) (sk + 1) (N.to_nat (i - sk)) out' ltac:(lia) ltac:(lia)) He) as (xs & Hx & <-).
        exists (Some (EoInkSpace h w) :: xs). cbn. unfold parse_ink_space. rewrite Hw, Hh. cbn. rewrite Hx. split; reflexivity.
  - split.
    + intros (xs & H & <-). apply bind_ok in H as (x & Hx & H). apply bind_ok in H as (ys & Hy & [= <-]).
      assert (E : embeds sp refs (S k) objs (flatten ys)) by (apply (IH (i + 1) sk (S k) (flatten ys)); [lia|lia|eauto]).
      destruct refs as [|r0 refs].
      { injection Hx as <-. cbn. now apply em_none. }
      rewrite Hk in Hx. destruct (nth_error (r0 :: refs) k) as [id|] eqn:Hn; [|discriminate Hx].
      apply bind_ok in Hx as (e & He & [= <-]). apply embedded_ink_object_ok in He as (ss & bb & Hd & ->).
      cbn. eapply em_ink; eassumption.
    + intros H. inversion H as [| | |k' d' id ss bb r out' Hn Hd He E1 E2 E3|k' d' r out' Hr He E1 E2 E3]; subst.
      * destruct (proj2 (IH (i + 1) sk (S (N.to_nat (i - sk))) out' ltac:(lia) ltac:(lia)) He) as (xs & Hx & <-).
        eexists (Some _ :: xs). destruct refs as [|r0 refs]; [destruct (N.to_nat (i - sk)); discriminate Hn|]. rewrite Hn.
        assert (Hp : parse_embedded_ink id sp d = Ok (EoInk (Ink ss bb (ei_offset_horiz d) (ei_offset_vert d)) (shown_box d)))
          by (apply embedded_ink_object_ok; eauto).
        rewrite Hp. cbn [rbind]. rewrite Hx. split; reflexivity.
      * destruct (proj2 (IH (i + 1) sk (S (N.to_nat (i - sk))) out ltac:(lia) ltac:(lia)) He) as (xs & Hx & <-).
        exists (None :: xs). cbn. rewrite Hx. split; reflexivity.
Qed.

Lemma style_at_ok sp sid sd :
  (let! so := need_object sid sp in style_parse so) = Ok sd <-> found sp sid (fun so => style_object so sd).
Proof. rewrite found_ok. apply found_iff. intros. apply style_ok. Qed.
Lemma all2_map {A B} (f : A -> B) (R : A -> B -> Prop) l m : (forall a b, f a = b <-> R a b) -> map f l = m <-> Forall2 R l m.
Proof.
  intros H. revert m. induction l as [|a l IH]; intros m; cbn.
  - split; [intros <-; constructor|intros F; inversion F; reflexivity].
  - split.
    + intros <-. constructor; [now apply H|now apply IH].
    + intros F. inversion F as [|x y l' m' Hx Hl E1 E2]; subst. f_equal; [now apply H|now apply IH].
Qed.

Lemma ink_pair_ok (p : object * style_data) i :
  (let! d := embedded_ink_parse (fst p) in Ok (sy_object_type (snd p), d)) = Ok i <->
  fst i = sy_object_type (snd p) /\ embedded_ink_run (fst p) (snd i).
Proof.
  rewrite bind_ok. split.
  - intros (d & Hd & [= <-]). cbn. split; [reflexivity|now apply embedded_ink_ok].
  - destruct i as [t d]. cbn. intros (-> & Hd). exists d. split; [now apply embedded_ink_ok|reflexivity].
Qed.
Lemma map_res_ext {A B} (f g : A -> res B) l : (forall a, f a = g a) -> map_res f l = map_res g l.
Proof. intros H. induction l as [|a l IH]; cbn; [reflexivity|]. now rewrite H, IH. Qed.

(** The two selections of runs, as the code writes them. *)
Definition maths_of (ps : list (object * style_data)) : res (list (option math_object)) :=
  map_res (fun '(run, style) =>
    if sy_math_formatting style then
      let! d := math_data_parse run in let! m := parse_math_object d in Ok (Some m)
    else Ok None) ps.
Definition inks_of (ps : list (object * style_data)) : res (list (option (option N * embedded_ink_data))) :=
  map_res (fun '(run, style) =>
    if sy_is_embedded_object style then
      let! d := embedded_ink_parse run in Ok (Some (sy_object_type style, d))
    else Ok None) ps.
Lemma maths_ok ps ms : (exists xs, maths_of ps = Ok xs /\ flatten xs = ms) <->
  selects (fun p => sy_math_formatting (snd p)) (fun p m => math_is (fst p) m) ps ms.
Proof.
  rewrite <- (selects_ok _ (fun p => let! d := math_data_parse (fst p) in parse_math_object d)).
  - unfold maths_of. erewrite map_res_ext; [reflexivity|]. intros [run style]. cbn.
    destruct (sy_math_formatting style); [|reflexivity]. destruct (math_data_parse run); reflexivity.
  - intros [run style] m. apply math_is_ok.
Qed.
Lemma inks_ok ps is : (exists xs, inks_of ps = Ok xs /\ flatten xs = is) <->
  selects (fun p => sy_is_embedded_object (snd p))
      (fun p i => fst i = sy_object_type (snd p) /\ embedded_ink_run (fst p) (snd i)) ps is.
Proof.
  rewrite <- (selects_ok _ (fun p => let! d := embedded_ink_parse (fst p) in Ok (sy_object_type (snd p), d))).
  - unfold inks_of. erewrite map_res_ext; [reflexivity|]. intros [run style]. cbn.
    destruct (sy_is_embedded_object style); [|reflexivity]. destruct (embedded_ink_parse run); reflexivity.
  - intros p i. apply ink_pair_ok.
Qed.

Lemma text_is_ok sp id t : parse_rich_text id sp = Ok t <-> text_is sp id t.
Proof.
  unfold parse_rich_text, text_is. rewrite found_ok. apply found_iff. intros o.
  rewrite (node_ok _ _ _ _ _ text_ok). apply ex_iff. intros d. split.
  - intros (Hd & H). apply found_ok in H as (po & Hpo & H). apply bind_ok in H as (pd & Hpd & H).
    apply bind_ok in H as (styles & Hst & H). apply bind_ok in H as (runs & Hr & H).
    fold (maths_of (combine runs styles)) in H. fold (inks_of (combine runs styles)) in H.
    apply bind_ok in H as (ms & Hm & H). apply bind_ok in H as (is & Hi & H).
    apply bind_ok in H as (es & He & H). cbv zeta in H. apply bind_ok in H as (ts & Ht & [= <-]). cbn.
    exists pd, styles, runs, (flatten is). split; [exact Hd|].
    split; [exists po; split; [exact Hpo|now apply style_ok]|]. split; [now apply styled_ok|].
    split; [now apply (map_ok _ _ _ _ (style_at_ok sp)) in Hst|].
    split; [now apply (all2_map _ _ _ _ styled_ok)|]. split; [now apply runs_ok|].
    split; [apply maths_ok; eauto|]. split; [apply inks_ok; eauto|].
    split; [apply (embeds_ok sp (rt_run_data_object d) (flatten is) 0 0 0%nat); [lia|reflexivity|eauto]|].
    split; [|repeat split; now apply note_tags_ok].
    destruct (flatten es); [right; auto|left; split; [discriminate|reflexivity]].
  - destruct t. cbn.
    intros (pd & styles & runs & is & Hd & (po & Hpo & Hpd) & Hps & Hst & Hsf & Hr & Hm & Hi & He & Htx & -> & -> & -> & -> & -> & -> & -> & Ht).
    split; [exact Hd|]. apply need_ok in Hpo. rewrite Hpo. cbn [rbind]. apply style_ok in Hpd. rewrite Hpd. cbn [rbind].
    apply (map_ok _ _ _ _ (style_at_ok sp)) in Hst. rewrite Hst. cbn [rbind]. apply runs_ok in Hr. rewrite Hr. cbn [rbind].
    fold (maths_of (combine runs styles)). fold (inks_of (combine runs styles)).
    apply maths_ok in Hm as (ms & -> & <-). apply inks_ok in Hi as (ixs & -> & <-). cbn [rbind].
    apply (embeds_ok sp (rt_run_data_object d) (flatten ixs) 0 0 0%nat) in He as (es & -> & <-); [|lia|reflexivity].
    cbn [rbind]. cbv zeta. apply note_tags_ok in Ht. rewrite Ht. cbn [rbind].
    apply styled_ok in Hps. subst. apply (all2_map _ _ _ _ styled_ok) in Hsf. subst.
    destruct (flatten es) as [|e0 es'].
    + destruct Htx as [(Hn & _)|(_ & ->)]; [now destruct Hn|reflexivity].
    + destruct Htx as [(_ & ->)|(E & _)]; [reflexivity|discriminate E].
Qed.
