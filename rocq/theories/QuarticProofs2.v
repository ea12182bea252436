(** At least one look-up for every stroke, and the file with very many. *)
From Coq Require Import Lia.
From Verif Require Import Base Codec SpecCodec Package PropSet Store Nodes Doc Notebook SpecSize Looks SpecLooks LooksProofs LooksProofs2 LooksProofs3 QuarticProofs.
Local Open Scope nat_scope.

Lemma total_one {A} (l : list A) : total (fun _ => 1) l = length l.
Proof. induction l as [|a l IH]; [reflexivity|]. cbn [total length]. now rewrite IH. Qed.
Lemma strokes_ink id sp i : snd (parse_ink_t id sp) = Ok i -> length (in_strokes i) <= length (fst (parse_ink_t id sp)).
Proof.
  unfold parse_ink_t. intro H. step H o. step H c. destruct (ic_ink_data c) as [data|]; [|injection H as <-; cbn; lia].
  step H p. destruct p as (ss, b). injection H as <-. cbn [in_strokes fst].
  unfold parse_ink_data_t in H2 |- *. step H2 o'. step H2 d. step H2 l. injection H2 as <- _.
  rewrite <- total_one.
  pose proof (map_least (fun _ => 1) (fun i => parse_ink_stroke_t i sp (ic_scaling_x c) (ic_scaling_y c)) (ik_strokes d)) as M.
  assert (G : forall a b, snd (parse_ink_stroke_t a sp (ic_scaling_x c) (ic_scaling_y c)) = Ok b -> 1 <= length (fst (parse_ink_stroke_t a sp (ic_scaling_x c) (ic_scaling_y c)))).
  { clear. intros a b H. unfold parse_ink_stroke_t in *. step H o. cbn [need_object_t fst length]. lia. }
  match goal with X : snd (map_t _ _) = Ok _ |- _ => specialize (M G _ X) end. cbn [need_object_t fst length]. lia.
Qed.
Lemma strokes_content f sp id x : snd (parse_page_content_t f sp id) = Ok x -> content_strokes x <= length (fst (parse_page_content_t f sp id)).
Proof.
  unfold parse_page_content_t. intro H. step H o. step H k. cbn [need_object_t fst length].
  destruct k; try (injection H as <-; cbn [content_strokes]; lia); step H y; injection H as <-; cbn [content_strokes]; try lia.
  apply strokes_ink in H2. lia.
Qed.
Lemma strokes_page f sp p : snd (parse_page_t f sp) = Ok p -> page_strokes p <= length (fst (parse_page_t f sp)).
Proof.
  unfold parse_page_t. intro H. step H m. step H pid. step H d. step H t. step H c. injection H as <-. unfold page_strokes. cbn [pg_contents].
  pose proof (map_least content_strokes _ _ (strokes_content f sp) _ H4) as D. lia.
Qed.
Lemma strokes_section f st file s : snd (parse_section_t f st file) = Ok s -> section_strokes s <= length (fst (parse_section_t f st file)).
Proof.
  unfold parse_section_t. intro H. step H m. step H c. step H l. injection H as <-. unfold section_strokes. cbn [se_page_series].
  assert (F : forall id ps, snd (parse_page_series_t f st id) = Ok ps -> total page_strokes ps <= length (fst (parse_page_series_t f st id))).
  { clear. unfold parse_page_series_t. intros id ps H. step H o. step H d.
    assert (G : forall cell p, snd (let+ sp := ([TheSpace cell], ok_or MalformedOneNoteData (object_space st cell)) in at_ (InSpace cell) (parse_page_t f sp)) = Ok p ->
      page_strokes p <= length (fst (let+ sp := ([TheSpace cell], ok_or MalformedOneNoteData (object_space st cell)) in at_ (InSpace cell) (parse_page_t f sp)))).
    { clear. intros cell p H. step H sp. cbn [at_ snd] in H. apply strokes_page in H. cbn [at_ fst]. rewrite map_length. lia. }
    pose proof (map_least page_strokes _ _ G _ H). lia. }
  pose proof (map_least (total page_strokes) _ _ F _ H2). lia.
Qed.

Lemma quartic k : (N.of_nat k < 2 ^ 22)%N ->
  exists d, bytes_ok d /\ length d <= 400 * (k + 15) /\ forall h, exists st s, open_store h 1 d = Ok st /\
    (forall cell sp, object_space st cell = Some sp -> tree sp) /\ section_strokes s = k ^ 4 /\
    forall file, exists f, forall fuel, f <= fuel -> snd (parse_section_t fuel st file) = Ok s /\ k ^ 4 <= length (fst (parse_section_t fuel st file)).
Proof.
  intro L. destruct (q_written k L) as (d & B & Ln & H). exists d. refine (conj B (conj Ln _)). intro h. destruct (H h) as (st & E & _ & T & P).
  exists st, (q_section k). refine (conj E (conj T (conj (q_count k) _))). intro file. destruct (P file) as (f & F). exists f. intros fuel Hf. specialize (F fuel Hf).
  rewrite <- same_section in F. split; [exact F|]. rewrite <- (q_count k). now apply strokes_section.
Qed.
