(** One answer: whatever fuel is given, a run that ends always ends the same way. *)
From Coq Require Import Lia ZifyBool ZifyNat ZifyN.
From Verif Require Import Base Codec Package PropSet PropIds Store Shapes Props Nodes Doc Notebook
  BaseProofs StoreProofs2.

Lemma refines_rbind {A B} (r r' : res A) (f f' : A -> res B) :
  refines r r' -> (forall a, refines (f a) (f' a)) -> refines (rbind r f) (rbind r' f').
Proof.
  intros H1 H2 H. destruct r as [a|e| |]; cbn [rbind] in *; try (now rewrite H1 by discriminate); [|congruence].
  rewrite H1 by discriminate. cbn [rbind]. apply H2; auto.
Qed.
Lemma refines_same {A B} (r : res A) (f f' : A -> res B) :
  (forall a, refines (f a) (f' a)) -> refines (rbind r f) (rbind r f').
Proof. intro H. apply refines_rbind; [apply refines_refl | exact H]. Qed.
Lemma refines_map {A B} (f g : A -> res B) l : (forall a, refines (f a) (g a)) -> refines (map_res f l) (map_res g l).
Proof.
  intro H. induction l as [|a l IH]; cbn [map_res]; [apply refines_refl|].
  apply refines_rbind; [apply H|]. intro. apply refines_rbind; [exact IH|]. intro; apply refines_refl.
Qed.
Lemma refines_opt {A B} (f g : A -> res B) o : (forall a, refines (f a) (g a)) -> refines (opt_map_res f o) (opt_map_res g o).
Proof.
  intro H. destruct o; cbn [opt_map_res]; [|apply refines_refl].
  apply refines_rbind; [apply H|]. intro; apply refines_refl.
Qed.
Lemma refines_out {A} (r : res A) : refines OutOfFuel r.
Proof. intro H. now destruct H. Qed.

Ltac more :=
  match goal with
  | |- refines ?a ?a => apply refines_refl
  | |- refines OutOfFuel _ => apply refines_out
  | |- refines (rbind ?r _) (rbind ?r _) => apply refines_same; intro
  | |- refines (rbind _ _) (rbind _ _) => apply refines_rbind; [|intro]
  | |- refines (map_res _ _) (map_res _ _) => apply refines_map; intro
  | |- refines (opt_map_res _ _) (opt_map_res _ _) => apply refines_opt; intro
  | |- refines (let (_, _) := ?x in _) _ => destruct x
  | |- refines (match ?x with _ => _ end) (match ?x with _ => _ end) => destruct x
  | |- refines (if ?x then _ else _) (if ?x then _ else _) => destruct x
  end.

(** ** Opening *)
Lemma walk_more f f' ctx sp si pk cache id objs rts : (f <= f')%nat ->
  refines (revision_walk f ctx sp si pk cache id objs rts) (revision_walk f' ctx sp si pk cache id objs rts).
Proof. intros L N. now apply walk_mono. Qed.
Lemma space_more h f f' m si pk cache : (f <= f')%nat ->
  refines (space_parse h f m si pk cache) (space_parse h f' m si pk cache).
Proof. intro L. unfold space_parse. repeat more. now apply walk_more. Qed.
Lemma object_space_more h f f' c si pk cache : (f <= f')%nat ->
  refines (parse_object_space h f c si pk cache) (parse_object_space h f' c si pk cache).
Proof. intro L. unfold parse_object_space. more. now apply space_more. Qed.
Lemma spaces_more h f f' si pk cache done ms : (f <= f')%nat -> forall acc,
  refines (parse_spaces h f si pk cache done ms acc) (parse_spaces h f' si pk cache done ms acc).
Proof.
  intro L. induction ms as [|m ms IH]; intro acc; cbn [parse_spaces]; [more|].
  do 2 (more; [apply IH|]). more; [now apply object_space_more|]. more. apply IH.
Qed.
Lemma store_more h f f' pg : (f <= f')%nat -> refines (parse_store h f pg) (parse_store h f' pg).
Proof.
  intro L. unfold parse_store. cbv zeta. do 8 more. more; [now apply object_space_more|]. more.
  more; [now apply spaces_more|]. more.
Qed.
Lemma open_fuel h f f' d : (f <= f')%nat -> refines (open_store h f d) (open_store h f' d).
Proof. intro L. unfold open_store. more. now apply store_more. Qed.

(** ** Documents *)
Lemma table_more e e' id sp : (forall i, refines (e i) (e' i)) -> refines (parse_table e id sp) (parse_table e' id sp).
Proof.
  intro H. unfold parse_table. do 2 more. more; [|repeat more]. more.
  unfold parse_row. do 2 more. more; [|repeat more]. more. unfold parse_cell. do 2 more. more; [|repeat more]. more. apply H.
Qed.
Lemma item_more f : forall f' sp id, (f <= f')%nat ->
  refines (parse_outline_item f sp id) (parse_outline_item f' sp id) /\
  refines (parse_outline_element f sp id) (parse_outline_element f' sp id) /\
  refines (parse_content f sp id) (parse_content f' sp id).
Proof.
  induction f as [|f IH]; intros f' sp id L; [repeat split; apply refines_out|].
  destruct f' as [|f']; [lia|]. cbn [parse_outline_item parse_outline_element parse_content].
  assert (I : forall i, refines (parse_outline_item f sp i) (parse_outline_item f' sp i)) by (intro i; apply (IH f' sp i); lia).
  assert (E : forall i, refines (parse_outline_element f sp i) (parse_outline_element f' sp i)) by (intro i; apply (IH f' sp i); lia).
  assert (C : forall i, refines (parse_content f sp i) (parse_content f' sp i)) by (intro i; apply (IH f' sp i); lia).
  clear IH. refine (conj _ (conj _ _)).
  - do 2 more. destruct a0; try apply refines_refl; repeat more; auto.
  - repeat more; auto.
  - do 2 more. destruct a0; try apply refines_refl. more; [|more]. now apply table_more.
Qed.
Lemma outline_more f f' sp id : (f <= f')%nat -> refines (parse_outline f sp id) (parse_outline f' sp id).
Proof. intro L. unfold parse_outline. repeat more. now apply item_more. Qed.
Lemma page_more f f' sp : (f <= f')%nat -> refines (parse_page f sp) (parse_page f' sp).
Proof.
  intro L. unfold parse_page. do 3 more. more; [|more; [|more]]; more.
  - unfold parse_title. do 2 more. more; [|more]. more. now apply outline_more.
  - unfold parse_page_content. do 2 more. destruct a5; try apply refines_refl. more; [|more]. now apply outline_more.
Qed.
Lemma section_more f f' st n : (f <= f')%nat -> refines (Doc.parse_section f st n) (Doc.parse_section f' st n).
Proof.
  intro L. unfold Doc.parse_section. cbv zeta. do 2 more. more; [|more]. more.
  unfold parse_page_series. do 2 more. more. more. now apply page_more.
Qed.
Lemma toc_entry_more f : forall f' sp id, (f <= f')%nat -> refines (parse_toc_entry f sp id) (parse_toc_entry f' sp id).
Proof.
  induction f as [|f IH]; intros f' sp id L; [apply refines_out|]. destruct f' as [|f']; [lia|].
  cbn [parse_toc_entry]. do 2 more. more; [more|]. more; [|more]. more. apply IH. lia.
Qed.
Lemma toc_more f f' sp : (f <= f')%nat -> refines (parse_toc f sp) (parse_toc f' sp).
Proof. intro L. unfold parse_toc. more. more; [now apply toc_entry_more|more]. Qed.

(** ** The API *)
Lemma buffer_fuel h f f' d n : (f <= f')%nat -> refines (parse_section_buffer h f d n) (parse_section_buffer h f' d n).
Proof. intro L. unfold parse_section_buffer. more; [now apply open_fuel|]. more; [now apply section_more|more]. Qed.
Lemma section_file_more h f f' fs p : (f <= f')%nat -> refines (parse_section_file h f fs p) (parse_section_file h f' fs p).
Proof.
  intro L. unfold parse_section_file. more. more; [now apply open_fuel|]. more; [|more]. more. now apply section_more.
Qed.
Lemma notebook_fuel s h f f' fs : (f <= f')%nat -> forall d d' p, (d <= d')%nat ->
  refines (parse_notebook s h d f fs p) (parse_notebook s h d' f' fs p).
Proof.
  intro L. induction d as [|d IH]; intros d' p Ld; [apply refines_out|]. destruct d' as [|d']; [lia|].
  cbn [parse_notebook]. more. more; [now apply open_fuel|]. more; [|more]. more. more; [now apply toc_more|].
  more. more. more; [|more]. more. more; [more; [now apply section_file_more|more]|].
  do 3 more. more; [apply IH; lia|more].
Qed.

Lemma refines_agree {A} (F : nat -> res A) f f' : (forall f f', (f <= f')%nat -> refines (F f) (F f')) ->
  F f <> OutOfFuel -> F f' <> OutOfFuel -> F f = F f'.
Proof.
  intros M H H'. destruct (Nat.le_ge_cases f f') as [L|L].
  - symmetry. exact (M _ _ L H).
  - exact (M _ _ L H').
Qed.
Lemma notebook_one s h fs p d d' f f' : parse_notebook s h d f fs p <> OutOfFuel -> parse_notebook s h d' f' fs p <> OutOfFuel ->
  parse_notebook s h d f fs p = parse_notebook s h d' f' fs p.
Proof.
  intros H H'. rewrite <- (notebook_fuel s h f (f + f') fs ltac:(lia) d (d + d') p ltac:(lia) H).
  exact (notebook_fuel s h f' (f + f') fs ltac:(lia) d' (d + d') p ltac:(lia) H').
Qed.
