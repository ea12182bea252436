(** Facts about whole reads: what follows the data, and cut files. *)
From Coq Require Import Lia ZifyBool ZifyNat ZifyN.
From Verif Require Import Base BaseProofs Codec Package PackageProofs PropSet Store Shapes Props Nodes Doc
  SpecPackage Notebook SpecApi.

Lemma run_more : forall d, run packaging_parse d <> Err UnexpectedEof ->
  forall t, run packaging_parse (d ++ t) = run packaging_parse d.
Proof.
  intros d H t. destruct good_packaging as [[Hok Herr] Hp Hf]. unfold run in *.
  destruct (packaging_parse d) as [[pg r]|e| |] eqn:E; cbn [rbind] in *.
  - destruct (Hok _ _ _ E) as (pre & -> & _ & T & _). rewrite <- app_assoc, T. reflexivity.
  - rewrite (Herr _ _ E); [reflexivity|]. intros ->. now apply H.
  - now apply Hp in E.
  - now apply Hf in E.
Qed.

Lemma open_more : forall h f d, open_store h f d <> Err UnexpectedEof ->
  forall t, open_store h f (d ++ t) = open_store h f d.
Proof.
  intros h f d H t. unfold open_store in *. rewrite run_more; [reflexivity|].
  intro E. rewrite E in H. now apply H.
Qed.

Lemma buffer_more : forall h f d n, parse_section_buffer h f d n <> Err UnexpectedEof ->
  forall t, parse_section_buffer h f (d ++ t) n = parse_section_buffer h f d n.
Proof.
  intros h f d n H t. unfold parse_section_buffer in *. rewrite open_more; [reflexivity|].
  intro E. rewrite E in H. now apply H.
Qed.

Lemma run_cut : forall d pg, run packaging_parse d = Ok pg ->
  exists k, (k <= length d)%nat /\
    (forall m, (m < k)%nat -> run packaging_parse (firstn m d) = Err UnexpectedEof) /\
    (forall t, run packaging_parse (firstn k d ++ t) = Ok pg).
Proof.
  intros d pg H. destruct good_packaging as [[Hok _] _ _]. unfold run in *.
  destruct (packaging_parse d) as [[x r]| | |] eqn:E; cbn [rbind] in H; try discriminate.
  injection H as ->. destruct (Hok _ _ _ E) as (pre & -> & _ & T & C). exists (length pre). repeat split.
  - rewrite app_length. lia.
  - intros m Hm. rewrite firstn_app. replace (m - length pre)%nat with 0%nat by lia.
    rewrite firstn_O, app_nil_r. rewrite (C (firstn m pre) (skipn m pre)); [reflexivity| |].
    + now rewrite firstn_skipn.
    + intro Q. apply (f_equal (@length N)) in Q. rewrite skipn_length in Q. cbn in Q. lia.
  - intro t. rewrite firstn_app, Nat.sub_diag, firstn_O, app_nil_r, firstn_all, T. reflexivity.
Qed.

(** Everything that is opened has a last byte that matters. *)
Lemma buffer_cut : forall h f d n st, open_store h f d = Ok st ->
  exists k, (k <= length d)%nat /\
    (forall m, (m < k)%nat -> parse_section_buffer h f (firstn m d) n = Err UnexpectedEof) /\
    (forall t, parse_section_buffer h f (firstn k d ++ t) n = parse_section_buffer h f d n).
Proof.
  intros h f d n st H. unfold open_store in H.
  destruct (run packaging_parse d) as [pg| | |] eqn:E; cbn [rbind] in H; try discriminate.
  destruct (run_cut _ _ E) as (k & L & C & T). exists k. split; [exact L|].
  unfold parse_section_buffer, open_store. rewrite E. split.
  - intros m Hm. now rewrite C.
  - intro t. now rewrite T.
Qed.

Lemma buffer_ok_cut : forall h f d n s, parse_section_buffer h f d n = Ok s ->
  exists k, (k <= length d)%nat /\
    (forall m, (m < k)%nat -> parse_section_buffer h f (firstn m d) n = Err UnexpectedEof) /\
    (forall t, parse_section_buffer h f (firstn k d ++ t) n = Ok s).
Proof.
  intros h f d n s H. destruct (open_store h f d) as [st| | |] eqn:E;
    [|unfold parse_section_buffer in H; rewrite E in H; discriminate ..].
  destruct (buffer_cut h f d n st E) as (k & L & C & T). exists k. repeat split; auto.
  intro t. now rewrite T.
Qed.

(** ** Notebooks *)
Lemma map_res_more : forall {A B} (f g : A -> res B) l,
  (forall a, f a <> Err UnexpectedEof -> g a = f a) ->
  map_res f l <> Err UnexpectedEof -> map_res g l = map_res f l.
Proof.
  intros A B f g l H. induction l as [|a l IH]; cbn [map_res]; intro N; [reflexivity|].
  assert (Fa : f a <> Err UnexpectedEof) by (intro E; rewrite E in N; now apply N).
  rewrite (H a Fa). destruct (f a) as [b| | |]; cbn [rbind] in *; try reflexivity.
  rewrite IH; [reflexivity|]. intro E. rewrite E in N. now apply N.
Qed.

Lemma section_file_more : forall h f fs fs' p, longer_files fs fs' ->
  parse_section_file h f fs p <> Err UnexpectedEof ->
  parse_section_file h f fs' p = parse_section_file h f fs p.
Proof.
  intros h f fs fs' p (_ & _ & _ & _ & R) N. specialize (R p). unfold parse_section_file in *.
  destruct (fs_read fs p) as [d|]; [|rewrite R; reflexivity]. destruct R as (t & ->). cbn [ok_or rbind] in *.
  rewrite open_more; [reflexivity|]. intro E. rewrite E in N. now apply N.
Qed.

Lemma resolve_ext : forall s fs fs' b n, longer_files fs fs' ->
  resolve_entry_path s fs' b n = resolve_entry_path s fs b n.
Proof.
  intros s fs fs' b n (X & _ & C & _). unfold resolve_entry_path.
  destruct (is_absolute n); [reflexivity|]. destruct (sanitize_components s (components n)) as [c| | |]; try reflexivity.
  cbn [rbind]. destruct c; [reflexivity|]. cbv zeta. rewrite X. destruct (fs_exists fs _); [|reflexivity].
  rewrite !C. reflexivity.
Qed.

Lemma notebook_more : forall s h d f fs fs' p, longer_files fs fs' ->
  parse_notebook s h d f fs p <> Err UnexpectedEof ->
  parse_notebook s h d f fs' p = parse_notebook s h d f fs p.
Proof.
  intros s h d f fs fs' p L. revert p. induction d as [|d IH]; intro p; cbn [parse_notebook]; [reflexivity|].
  pose proof L as (X & F & C & D & R). intro N. specialize (R p).
  destruct (fs_read fs p) as [data|]; [|rewrite R; reflexivity]. destruct R as (t & ->). cbn [ok_or rbind] in *.
  rewrite open_more; [|intro E; rewrite E in N; now apply N].
  destruct (open_store h f data) as [st| | |]; cbn [rbind] in *; try reflexivity.
  destruct (_ =? _); [|reflexivity]. destruct (ok_or InvalidPath (parent p)) as [b| | |]; cbn [rbind] in *; try reflexivity.
  destruct (parse_toc f (st_data_root st)) as [[names color]| | |]; cbn [rbind] in *; try reflexivity.
  assert (Q : map_res (resolve_entry_path s fs' b) names = map_res (resolve_entry_path s fs b) names).
  { clear N. induction names as [|n names IN]; cbn [map_res]; [reflexivity|]. rewrite (resolve_ext _ fs fs'), IN; auto. }
  rewrite Q. destruct (map_res (resolve_entry_path s fs b) names) as [ps| | |]; cbn [rbind] in *; try reflexivity.
  rewrite (filter_ext (fs_exists fs') (fs_exists fs)) by exact X.
  match goal with |- rbind (map_res ?g ?l) _ = rbind (map_res ?f' _) _ =>
    assert (M : map_res g l = map_res f' l) end.
  { apply map_res_more; [|intro E; rewrite E in N; now apply N]. clear - L IH F D.
    intros q N. rewrite F. destruct (fs_is_file fs q).
    - rewrite (section_file_more h f fs fs'); auto. intro E. rewrite E in N. now apply N.
    - destruct (ok_or InvalidPath (file_name q)); cbn [rbind] in *; try reflexivity.
      rewrite D. destruct (ok_or IO (fs_read_dir fs q)) as [l| | |]; cbn [rbind] in *; try reflexivity.
      destruct (find_toc l) as [t| | |]; cbn [rbind] in *; try reflexivity.
      rewrite IH; [reflexivity|]. intro E. rewrite E in N. now apply N. }
  rewrite M. reflexivity.
Qed.
