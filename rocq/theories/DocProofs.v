(** Proofs about the leaves of a document: tags, lists, files, images, ink and
    paragraphs. *)
From Coq Require Import Lia ZifyBool ZifyNat ZifyN Floats.SpecFloat.
From Verif Require Import Base Codec Package PropSet PropIds Store Shapes Props Nodes Doc SpecCodec SpecValues SpecNodes
  NodesProofs NodesProofs2 NodesProofs3 SpecDoc.

(** ** Combinators *)
Lemma need_ok id sp o : need_object id sp = Ok o <-> get_object sp id = Some o.
Proof. unfold need_object. destruct (get_object sp id); cbn; split; congruence. Qed.
Lemma found_ok {A} id sp (f : object -> res A) x :
  rbind (need_object id sp) f = Ok x <-> found sp id (fun o => f o = Ok x).
Proof.
  rewrite bind_ok. split; intros (o & H & Hf); exists o; (split; [|exact Hf]); now apply need_ok.
Qed.
Lemma found_iff sp id (P Q : object -> Prop) : (forall o, P o <-> Q o) -> found sp id P <-> found sp id Q.
Proof. intros H. split; intros (o & Ho & Hp); exists o; (split; [exact Ho|]); now apply H. Qed.
Lemma both_iff {A B} (R S : A -> B -> Prop) x y : (forall a b, R a b <-> S a b) -> both R x y <-> both S x y.
Proof. intros H. destruct x, y; cbn; try tauto. apply H. Qed.
Lemma opt_ok {A B} (f : A -> res B) x y : opt_map_res f x = Ok y <-> both (fun a b => f a = Ok b) x y.
Proof.
  destruct x as [a|]; cbn.
  - rewrite bind_ok. destruct y as [b|]; split.
    + intros (b' & H & [= <-]). exact H.
    + intros H. now exists b.
    + intros (b' & _ & [=]).
    + intros [].
  - destruct y; split; try congruence; tauto.
Qed.
Lemma all2_iff {A B} (R S : A -> B -> Prop) l m : (forall a b, R a b <-> S a b) -> Forall2 R l m <-> Forall2 S l m.
Proof.
  intros H. split; intros F; induction F; constructor; auto; now apply H.
Qed.
Lemma map_ok {A B} (f : A -> res B) R l ys : (forall a b, f a = Ok b <-> R a b) -> map_res f l = Ok ys <-> Forall2 R l ys.
Proof. intros H. rewrite map_res_ok. now apply all2_iff. Qed.
Lemma node_ok {A D} (parse : object -> res D) (P : object -> D -> Prop) o (f : D -> res A) x :
  (forall o d, parse o = Ok d <-> P o d) -> rbind (parse o) f = Ok x <-> exists d, P o d /\ f d = Ok x.
Proof. intros H. rewrite bind_ok. split; intros (d & Hd & Hf); exists d; (split; [now apply H|exact Hf]). Qed.
Lemma ex_iff {A} (P Q : A -> Prop) : (forall a, P a <-> Q a) -> (exists a, P a) <-> (exists a, Q a).
Proof. intros H. split; intros (a & Ha); exists a; now apply H. Qed.
Lemma and_iff (A B C : Prop) : (A -> (B <-> C)) -> (A /\ B) <-> (A /\ C).
Proof. tauto. Qed.

(** A record is the result iff its fields are as given. *)
Ltac fields x := destruct x; cbn; split;
  [let H := fresh in intros H; injection H; intros; subst; repeat split; auto
  |intros; repeat match goal with H : _ /\ _ |- _ => destruct H end; subst; auto].

(** ** Tags, lists, files and images *)
Lemma definition_ok sp id x : note_tag_definition id sp = Ok x <-> found sp id (fun o => tag_definition_object o x).
Proof. unfold note_tag_definition. rewrite found_ok. apply found_iff. intros o. apply tag_definition_ok. Qed.
Lemma tag_is_ok sp d t :
  (let! x := opt_map_res (fun id => note_tag_definition id sp) (tg_definition d) in
   Ok (NoteTag (tg_completed_at d) (tg_item_status d) x)) = Ok t <-> tag_is sp d t.
Proof.
  unfold tag_is. rewrite bind_ok. split.
  - intros (x & Hx & [= <-]). cbn. repeat split. apply opt_ok in Hx.
    exact (proj1 (both_iff _ _ _ _ (definition_ok sp)) Hx).
  - destruct t as [a b c]. cbn. intros (-> & -> & H). exists c. split; [|reflexivity]. apply opt_ok.
    exact (proj2 (both_iff _ _ _ _ (definition_ok sp)) H).
Qed.
Lemma note_tags_ok sp ds ts : note_tags ds sp = Ok ts <-> Forall2 (tag_is sp) ds ts.
Proof. apply map_ok. intros d t. apply tag_is_ok. Qed.
Lemma list_is_ok sp id l : parse_list id sp = Ok l <-> list_is sp id l.
Proof.
  unfold parse_list, list_is. rewrite found_ok. apply found_iff. intros o. rewrite (node_ok _ _ _ _ _ list_ok).
  apply ex_iff. intros d. apply and_iff. intros _. fields l.
Qed.
Lemma iframe_is_ok sp id f : parse_iframe id sp = Ok f <-> iframe_is sp id f.
Proof. unfold parse_iframe, iframe_is. rewrite found_ok. apply found_iff. intros o. apply iframe_ok. Qed.
Lemma file_is_ok sp id f : parse_embedded_file id sp = Ok f <-> file_is sp id f.
Proof.
  unfold parse_embedded_file, file_is. rewrite found_ok. apply found_iff. intros o.
  rewrite (node_ok _ _ _ _ _ file_node_ok). apply ex_iff. intros d. apply and_iff. intros _. rewrite found_ok. split.
  - intros (c & Hc & H). apply bind_ok in H as (bs & Hb & H). apply bind_ok in H as (ts & Ht & [= <-]). cbn.
    repeat split. { exists c. split; [exact Hc|now apply file_container_ok]. } now apply note_tags_ok.
  - destruct f as [a1 a2 a3 a4 a5 a6 a7 a8]. cbn. intros (-> & -> & -> & -> & -> & -> & (c & Hc & Hb) & Ht).
    exists c. split; [exact Hc|]. apply file_container_ok in Hb. apply note_tags_ok in Ht. rewrite Hb. cbn. rewrite Ht. reflexivity.
Qed.
Lemma image_is_ok sp id g : parse_image id sp = Ok g <-> image_is sp id g.
Proof.
  unfold parse_image, image_is. rewrite found_ok. apply found_iff. intros o.
  rewrite (node_ok _ _ _ _ _ image_ok). apply ex_iff. intros d. apply and_iff. intros _. split.
  - intros H. apply bind_ok in H as (co & Hc & H). apply bind_ok in H as (cd & Hd & H).
    apply bind_ok in H as (es & He & H). apply bind_ok in H as (ts & Ht & [= <-]). cbn.
    apply (map_ok _ _ _ _ (iframe_is_ok sp)) in He. apply note_tags_ok in Ht.
    repeat split; auto.
    destruct (im_picture_container d) as [c|]; cbn in Hc.
    + apply bind_ok in Hc as (c' & Hc & [= <-]). cbn in Hd. apply bind_ok in Hd as (p & Hp & [= <-]). cbn.
      exists c'. split; [now apply need_ok|]. exists p. split; [now apply picture_ok|auto].
    + injection Hc as <-. cbn in Hd. injection Hd as <-. cbn. auto.
  - destruct g. cbn. intros (Hc & -> & -> & -> & -> & -> & -> & -> & -> & -> & -> & -> & -> & -> & -> & -> & Ht & He).
    apply note_tags_ok in Ht. apply (map_ok _ _ _ _ (iframe_is_ok sp)) in He.
    destruct (im_picture_container d) as [c|]; cbn.
    + destruct Hc as (co & Hc & p & Hp & -> & ->). apply need_ok in Hc. apply picture_ok in Hp.
      rewrite Hc. cbn. rewrite Hp. cbn. rewrite He. cbn. rewrite Ht. reflexivity.
    + destruct Hc as (-> & ->). rewrite He. cbn. rewrite Ht. reflexivity.
Qed.

(** ** Ink *)
Lemma single_ok n : f32_of_bits n = single n.
Proof.
  unfold f32_of_bits, single. rewrite !N.shiftr_div_pow2.
  change 0x7FFFFF with (N.ones 23). change 0xFF with (N.ones 8). rewrite !N.land_ones.
  change (2 ^ 8) with 256. replace (negb (n / 2 ^ 31 =? 0)) with (1 <=? n / 2 ^ 31) by lia. reflexivity.
Qed.
Lemma factor_ok s : scale_of s = factor s.
Proof. destruct s; cbn [scale_of factor]; [apply single_ok|reflexivity]. Qed.
Lemma position_ok g ds i : position g ds = Some i <-> dimension ds g (N.to_nat i).
Proof.
  unfold dimension. revert i. induction ds as [|d ds IH]; intros i; cbn [position].
  - split; [discriminate|]. intros ((x & H & _) & _). destruct (N.to_nat i); discriminate H.
  - destruct (N.eqb_spec (id_id d) g) as [E|E].
    + split.
      * intros [= <-]. cbn. split; [eauto|lia].
      * intros (_ & H). destruct (N.eq_dec i 0) as [->|Hi]; [reflexivity|]. exfalso. apply (H 0%nat d); auto. lia.
    + split.
      * destruct (position g ds) as [j|]; [|discriminate]. intros [= <-].
        destruct (proj1 (IH j) eq_refl) as ((x & Hx & Hg) & Hm).
        replace (N.to_nat (N.succ j)) with (S (N.to_nat j)) by lia. cbn. split; [eauto|].
        intros [|k] y Hk; cbn; [intros [= <-]; exact E|]. intros Hy. apply (Hm k); auto. lia.
      * intros ((x & Hx & Hg) & Hm). destruct (N.to_nat i) as [|k] eqn:Ek; cbn in Hx; [congruence|].
        assert (H : position g ds = Some (N.of_nat k)).
        { apply IH. rewrite Nat2N.id. split; [eauto|]. intros j y Hj Hy. apply (Hm (S j)); [lia|exact Hy]. }
        rewrite H. cbn. f_equal. lia.
Qed.

Lemma len_nat {A} (l : list A) : N.to_nat (len l) = length l.
Proof. unfold len. lia. Qed.
Lemma slice_ok {A} a n (l : list A) : (N.to_nat a + N.to_nat n <= length l)%nat ->
  slice a n l = Ok (firstn (N.to_nat n) (skipn (N.to_nat a) l)).
Proof.
  intros H. unfold slice. pose proof (len_nat l). destruct (N.ltb_spec (len l) (a + n)); [lia|reflexivity].
Qed.
Lemma nth_firstn {A} n i (l : list A) : (i < n)%nat -> nth_error (firstn n l) i = nth_error l i.
Proof.
  revert i l. induction n as [|n IH]; intros i l H; [lia|]. destruct l as [|a l]; [now destruct i|].
  destruct i; cbn; [reflexivity|]. apply IH. lia.
Qed.
Lemma nth_skipn {A} k i (l : list A) : nth_error (skipn k l) i = nth_error l (k + i).
Proof.
  revert l. induction k as [|k IH]; intros l; [reflexivity|]. destruct l; cbn; [now destruct i|]. apply IH.
Qed.
Lemma nth_combine {A B} (l : list A) (m : list B) i :
  nth_error (combine l m) i =
  match nth_error l i, nth_error m i with Some a, Some b => Some (a, b) | _, _ => None end.
Proof.
  revert m i. induction l as [|a l IH]; intros m i; cbn; [now destruct i|].
  destruct m as [|b m]; cbn; [destruct i; cbn; [reflexivity|now destruct (nth_error l i)]|].
  destruct i; cbn; [reflexivity|]. apply IH.
Qed.
Lemma nth_ext_eq {A} (l m : list A) : length l = length m ->
  (forall i a b, nth_error l i = Some a -> nth_error m i = Some b -> a = b) -> l = m.
Proof.
  revert m. induction l as [|a l IH]; intros [|b m] Hl H; try discriminate Hl; [reflexivity|].
  f_equal; [exact (H 0%nat a b eq_refl eq_refl)|]. apply IH; [now injection Hl|]. intros i. exact (H (S i)).
Qed.
Lemma nth_in_range {A} (l : list A) i : (i < length l)%nat -> exists a, nth_error l i = Some a.
Proof. intros H. destruct (nth_error l i) eqn:E; [eauto|]. apply nth_error_None in E. lia. Qed.
Lemma dimension_lt ds g i : dimension ds g i -> (i < length ds)%nat.
Proof. intros ((d & H & _) & _). apply nth_error_Some. congruence. Qed.
Lemma dimension_fun ds g i j : dimension ds g i -> dimension ds g j -> i = j.
Proof.
  intros ((x & Hx & Hg) & Hi) ((y & Hy & Hg') & Hj).
  destruct (Nat.lt_trichotomy i j) as [H|[H|H]]; [|exact H|]; exfalso; [apply (Hj i x)|apply (Hi j y)]; auto.
Qed.
Lemma block_fits n k d m : (k < d)%nat -> n = (m / d)%nat -> (n * k + n <= m)%nat.
Proof.
  intros Hk ->. assert (d * (m / d) <= m)%nat by (apply Nat.mul_div_le; lia). nia.
Qed.
Definition path_of (zs : list Z) (n ix iy : nat) (sx sy : option N) : list ink_point :=
  map (fun '(x, y) => InkPoint (f32_mul (scale_of sx) (f32_of_Z x)) (f32_mul (scale_of sy) (f32_of_Z y)))
      (combine (firstn n (skipn (n * ix) zs)) (firstn n (skipn (n * iy) zs))).
Lemma path_run zs props sx sy ix iy :
  dimension (sp_dimensions props) guid_x ix -> dimension (sp_dimensions props) guid_y iy ->
  parse_ink_path zs props sx sy = Ok (path_of zs (length zs / length (sp_dimensions props)) ix iy sx sy).
Proof.
  intros Hx Hy. unfold parse_ink_path.
  assert (Px : position guid_x (sp_dimensions props) = Some (N.of_nat ix)) by (apply position_ok; now rewrite Nat2N.id).
  assert (Py : position guid_y (sp_dimensions props) = Some (N.of_nat iy)) by (apply position_ok; now rewrite Nat2N.id).
  rewrite Px, Py. cbn [ok_or rbind]. apply dimension_lt in Hx, Hy.
  set (n := len zs / len (sp_dimensions props)).
  assert (Hn : N.to_nat n = (length zs / length (sp_dimensions props))%nat).
  { unfold n. rewrite N2Nat.inj_div, !len_nat. reflexivity. }
  pose proof (block_fits _ _ _ _ Hx Hn). pose proof (block_fits _ _ _ _ Hy Hn).
  rewrite (slice_ok (n * N.of_nat ix)) by lia. cbn [rbind].
  rewrite (slice_ok (n * N.of_nat iy)) by lia. cbn [rbind].
  rewrite !N2Nat.inj_mul, !Nat2N.id, Hn. reflexivity.
Qed.
Lemma block_length {A} n k (l : list A) : (k + n <= length l)%nat -> length (firstn n (skipn k l)) = n.
Proof. intros H. rewrite firstn_length, skipn_length. lia. Qed.
Lemma path_of_length zs n ix iy sx sy : (n * ix + n <= length zs)%nat -> (n * iy + n <= length zs)%nat ->
  length (path_of zs n ix iy sx sy) = n.
Proof. intros H1 H2. unfold path_of. rewrite map_length, combine_length, !block_length by lia. lia. Qed.
Lemma path_of_nth zs n ix iy sx sy i p : nth_error (path_of zs n ix iy sx sy) i = Some p ->
  exists x y, nth_error zs (n * ix + i) = Some x /\ nth_error zs (n * iy + i) = Some y /\
    ip_x p = times (factor sx) (rounded x) /\ ip_y p = times (factor sy) (rounded y).
Proof.
  intros H.
  assert (Hi : (i < n)%nat).
  { assert (Hl : (i < length (path_of zs n ix iy sx sy))%nat) by (apply nth_error_Some; congruence).
    unfold path_of in Hl. rewrite map_length, combine_length, firstn_length in Hl. lia. }
  unfold path_of in H. rewrite nth_error_map, nth_combine, !nth_firstn, !nth_skipn in H by exact Hi.
  destruct (nth_error zs (n * ix + i)) as [x|]; [|discriminate H].
  destruct (nth_error zs (n * iy + i)) as [y|]; [|discriminate H]. injection H as <-.
  exists x, y. rewrite !factor_ok. repeat split.
Qed.
Lemma points_ok zs props sx sy pts :
  parse_ink_path zs props sx sy = Ok pts <-> points zs (sp_dimensions props) sx sy pts.
Proof.
  split.
  - intros H. assert (H' := H). unfold parse_ink_path in H'.
    destruct (position guid_x (sp_dimensions props)) as [ix|] eqn:Ex; [|discriminate H'].
    destruct (position guid_y (sp_dimensions props)) as [iy|] eqn:Ey; [|discriminate H']. clear H'.
    apply position_ok in Ex, Ey. rewrite (path_run _ _ _ _ _ _ Ex Ey) in H. injection H as <-.
    exists (N.to_nat ix), (N.to_nat iy). cbv zeta. split; [exact Ex|]. split; [exact Ey|].
    split.
    + apply path_of_length; eapply block_fits; try reflexivity; eapply dimension_lt; eassumption.
    + intros i p Hp. apply (path_of_nth _ _ _ _ _ _ _ _ Hp).
  - intros (ix & iy & Hx & Hy & Hl & Hp). rewrite (path_run _ _ _ _ _ _ Hx Hy). f_equal.
    apply nth_ext_eq.
    + rewrite Hl. apply path_of_length; eapply block_fits; try reflexivity; eapply dimension_lt; eassumption.
    + intros i a b Ha Hb. apply path_of_nth in Ha as (x & y & Hx1 & Hy1 & Ea & Eb).
      apply Hp in Hb as (x' & y' & Hx2 & Hy2 & Ea' & Eb'). destruct a, b. cbn in *. congruence.
Qed.
Lemma path_returns zs props sx sy : returns (parse_ink_path zs props sx sy).
Proof.
  unfold parse_ink_path.
  destruct (position guid_x (sp_dimensions props)) as [ix|] eqn:Ex; [|exact I].
  destruct (position guid_y (sp_dimensions props)) as [iy|] eqn:Ey; [|exact I].
  assert (Ex' := Ex). assert (Ey' := Ey). apply position_ok in Ex', Ey'.
  pose proof (path_run zs props sx sy _ _ Ex' Ey') as H. unfold parse_ink_path in H. rewrite Ex, Ey in H. now rewrite H.
Qed.

Lemma stroke_is_ok sp sx sy id s : parse_ink_stroke id sp sx sy = Ok s <-> stroke_is sp sx sy id s.
Proof.
  unfold parse_ink_stroke, stroke_is. rewrite found_ok. apply found_iff. intros o.
  rewrite (node_ok _ _ _ _ _ stroke_ok). apply ex_iff. intros d. apply and_iff. intros _.
  rewrite found_ok. apply found_iff. intros po. rewrite (node_ok _ _ _ _ _ stroke_properties_ok).
  apply ex_iff. intros p. apply and_iff. intros _. split.
  - intros H. apply bind_ok in H as (path & Hp & [= <-]). cbn. split; [now apply points_ok|auto].
  - destruct s. cbn. intros (Hp & -> & -> & -> & -> & ->). apply points_ok in Hp. now rewrite Hp.
Qed.
Lemma drawing_is_ok sp sx sy id ss b :
  parse_ink_data id sp sx sy = Ok (ss, b) <-> drawing_is sp sx sy id ss b.
Proof.
  unfold parse_ink_data, drawing_is. rewrite found_ok. apply found_iff. intros o.
  rewrite (node_ok _ _ _ _ _ ink_node_ok). apply ex_iff. intros d. apply and_iff. intros _.
  rewrite bind_ok. rewrite <- (map_ok (fun i => parse_ink_stroke i sp sx sy) _ _ _ (stroke_is_ok sp sx sy)).
  split.
  - intros (ss' & Hs & [= <- <-]). split; [exact Hs|]. destruct (ik_bounding_box d) as [[[[x0 y0] x1] y1]|]; [|exact I].
    cbn. rewrite !factor_ok. repeat split.
  - intros (Hs & Hb). exists ss. split; [exact Hs|]. do 2 f_equal.
    destruct (ik_bounding_box d) as [[[[x0 y0] x1] y1]|], b as [[a1 a2 a3 a4]|]; cbn in Hb; try destruct Hb; [|reflexivity].
    destruct H0 as (H0 & H1 & H2). cbn. subst. rewrite !factor_ok. reflexivity.
Qed.
Lemma ink_is_ok sp id i : parse_ink id sp = Ok i <-> ink_is sp id i.
Proof.
  unfold parse_ink, ink_is. rewrite found_ok. apply found_iff. intros o.
  rewrite (node_ok _ _ _ _ _ ink_container_ok). apply ex_iff. intros d. apply and_iff. intros _.
  destruct (ic_ink_data d) as [x|].
  - rewrite bind_ok. split.
    + intros ([ss b] & Hd & [= <-]). cbn. apply drawing_is_ok in Hd. auto.
    + destruct i as [ss b h v]. cbn. intros (-> & -> & Hd). exists (ss, b). split; [now apply drawing_is_ok|reflexivity].
  - destruct i as [ss b h v]. cbn. split.
    + intros [= <- <- <- <-]. auto.
    + intros (-> & -> & -> & ->). reflexivity.
Qed.

(** ** Paragraphs *)
Lemma math_table_ok n t : math_object_type_of n = Some t <-> In (n, t) math_table.
Proof.
  split.
  - intros H. unfold math_object_type_of in H.
    destruct n as [|p]; [injection H as <-; cbn; auto|].
    do 32 (try (destruct p as [p|p|]; try discriminate H;
      try (injection H as <-; cbn; repeat (try (left; reflexivity); right); fail))).
  - intros H. unfold math_table in H. repeat (destruct H as [[= <- <-]|H]; [reflexivity|]). destruct H.
Qed.
