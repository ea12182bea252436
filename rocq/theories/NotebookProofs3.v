(** Loading of notebooks: termination, confinement, crashes, kinds of files. *)
From Coq Require Import Lia ZifyBool ZifyNat ZifyN Permutation Relations.
From Verif Require Import Base Codec Package PropSet PropIds Store Shapes Props Nodes Doc SpecCodec SpecStore SpecValues SpecNodes
  NodesProofs NodesProofs2 NodesProofs3 StoreProofs StoreProofs2 StoreProofs3 PackageProofs PackageFacts SpecDoc DocProofs DocProofs2 DocProofs3 DocProofs4 DocProofs5 DocProofs6
  SpecNotebook Notebook NotebookProofs NotebookProofs2.
Local Open Scope nat_scope.

(** ** More fuel *)
Lemma map_mono {A B} (f g : A -> res B) l ys : (forall a b, f a = Ok b -> g a = Ok b) -> map_res f l = Ok ys -> map_res g l = Ok ys.
Proof.
  intros H Hl. apply map_res_ok in Hl. apply map_res_ok. induction Hl; constructor; auto.
Qed.
Lemma toc_entry_mono sp f : forall f' id e, f <= f' -> parse_toc_entry f sp id = Ok e -> parse_toc_entry f' sp id = Ok e.
Proof.
  induction f as [|f IH]; intros f' id e L H; [discriminate H|]. destruct f' as [|f']; [lia|]. cbn in *.
  apply bind_ok in H as (o & Ho & H). rewrite Ho. cbn [rbind]. apply bind_ok in H as (d & Hd & H). rewrite Hd. cbn [rbind].
  destruct (tc_filename d); [exact H|]. apply bind_ok in H as (l & Hl & H).
  rewrite (map_mono (parse_toc_entry f sp) (parse_toc_entry f' sp) _ l); auto. intros a b. apply IH. lia.
Qed.
Lemma toc_mono f f' sp r : f <= f' -> parse_toc f sp = Ok r -> parse_toc f' sp = Ok r.
Proof.
  intros L H. unfold parse_toc in *. apply bind_ok in H as (id & Hi & H). rewrite Hi. cbn [rbind].
  apply bind_ok in H as (e & He & H). rewrite (toc_entry_mono sp f f' id e L He). exact H.
Qed.
Lemma names_lost_not f sp names c id ts : parse_toc f sp = Ok (names, c) -> content_root sp = Some id -> listing sp id ts ->
  forall n, In n names <-> exists k, In (k, n) ts.
Proof.
  intros H Hid Hl n. apply toc_settles in H as (id' & ts' & r & Hid' & Hl' & (Hp & _) & Hs & _).
  assert (E : ts' = ts).
  { rewrite Hid in Hid'. injection Hid' as <-. destruct (toc_entry_complete _ _ _ Hl) as (c1 & k1 & H1).
    destruct (toc_entry_complete _ _ _ Hl') as (c2 & k2 & H2). specialize (H1 (k1 + k2) ltac:(lia)). specialize (H2 (k1 + k2) ltac:(lia)).
    congruence. }
  subst ts'. rewrite (squeezed_in _ _ Hs n), in_map_iff. split.
  - intros ((k, m) & <- & Hin). exists k. cbn. apply (Permutation_in _ (Permutation_sym Hp)). exact Hin.
  - intros (k & Hin). exists (k, n). split; [reflexivity|]. apply (Permutation_in _ Hp). exact Hin.
Qed.
Lemma toc_adjacent f sp names c i n m : parse_toc f sp = Ok (names, c) ->
  nth_error names i = Some n -> nth_error names (S i) = Some m -> n <> m.
Proof. intros H. apply toc_settles in H as (id & ts & r & _ & _ & _ & Hs & _). now apply (squeezed_adjacent _ _ _ _ _ Hs). Qed.
Lemma unnumbered f sp id o d n : get_object sp id = Some o -> toc_object o d -> tc_filename d = Some n -> tc_ordering_id d = None ->
  parse_toc_entry (S f) sp id = Err MalformedOneNoteData.
Proof.
  intros Ho Hd Hn Hk. cbn. apply need_ok in Ho. rewrite Ho. cbn [rbind]. apply toc_ok in Hd. rewrite Hd. cbn [rbind].
  now rewrite Hn, Hk.
Qed.

(** ** Names *)
Definition plain (n : name) : Prop := n <> [] /\ n <> [46%N] /\ n <> [46%N; 46%N] /\ ~ In 47%N n.
Lemma resolved sanitise fs base e p : resolve_entry_path sanitise fs base e = Ok p ->
  exists ns, p = base ++ map Normal ns /\ ns <> [] /\ Forall plain ns /\ contained fs base p.
Proof.
  intros H. apply resolve_ok in H as (ws & ns & (_ & Hw & _) & _ & Hp & Hn & Hc & -> & Hct).
  exists ns. repeat split; auto. rewrite Forall_forall in *. intros n Hi. destruct (Hc n Hi) as (H1 & _).
  apply (picks_in _ _ _ n Hp) in Hi as (Hi & H2 & H3). repeat split; auto.
Qed.
Lemma rejects sanitise fs base e ws : pieces e ws ->
  (hd_error e = Some 47%N \/ Forall (fun w => w = [] \/ w = [46%N]) ws \/ In [46%N; 46%N] ws \/
   exists w, In w ws /\ not_dot w /\ sanitise w <> w) ->
  resolve_entry_path sanitise fs base e = Err InvalidPath.
Proof.
  intros Hp H. destruct (resolve_cases sanitise fs base e) as [E|(p & E)]; [exact E|].
  apply resolve_ok in E as (ws' & ns & Hp' & Hh & Hk & Hn & Hc & _). apply pieces_split in Hp, Hp'. subst ws ws'.
  destruct H as [H|[H|[H|(w & H & Hd & Hs)]]].
  - contradiction.
  - destruct ns as [|n ns]; [easy|]. assert (Hi : In n (n :: ns)) by now left.
    apply (picks_in _ _ _ n Hk) in Hi as (Hi & H2 & H3). rewrite Forall_forall in H. destruct (H n Hi); contradiction.
  - assert (Hi : In [46%N; 46%N] ns) by (apply (picks_in _ _ _ _ Hk); split; [exact H|split; discriminate]).
    rewrite Forall_forall in Hc. destruct (Hc _ Hi) as (K & _). contradiction.
  - assert (Hi : In w ns) by (apply (picks_in _ _ _ _ Hk); auto). rewrite Forall_forall in Hc. destruct (Hc _ Hi) as (_ & K). contradiction.
Qed.
Lemma below_trans a b c : below_path a b -> below_path b c -> below_path a c.
Proof. intros (r & ->) (r' & ->). exists (r' ++ r). now rewrite app_assoc. Qed.

(** ** Termination *)
Lemma find_ret files : returns (find_toc files).
Proof.
  induction files as [|[n|] files IH]; [exact I| |exact I]. rewrite find_step. destruct (extension n); [|exact IH].
  destruct (name_eqb _ _); [exact I|exact IH].
Qed.
Lemma ret_ok_or {A} e (x : option A) : returns (ok_or e x). Proof. now destruct x. Qed.
Lemma map_in_ok {A B} (f : A -> res B) l ys b : map_res f l = Ok ys -> In b ys -> exists a, In a l /\ f a = Ok b.
Proof.
  intros H. apply map_res_ok in H. induction H as [|a c l ys Hac H IH]; [intros []|]. intros [<-|Hb]; [exists a; split; [now left|exact Hac]|].
  destruct (IH Hb) as (x & Hx & E). exists x. split; [now right|exact E].
Qed.
Lemma shown_in sanitise fs base names ps q : map_res (resolve_entry_path sanitise fs base) names = Ok ps -> In q (shown_paths fs ps) ->
  exists ns, q = base ++ map Normal ns /\ ns <> [] /\ fs_exists fs q = true /\ contained fs base q.
Proof.
  intros H Hq. unfold shown_paths in Hq. apply filter_In in Hq as (Hq & _). apply filter_In in Hq as (Hq & He).
  destruct (map_in_ok _ _ _ _ H Hq) as (e & _ & Er). apply resolved in Er as (ns & -> & Hn & _ & Hc). eauto 6.
Qed.
Lemma parent_snoc base c : c <> RootDir -> parent (base ++ [c]) = Some base.
Proof. intros H. apply parent_iff. exists c. split; [reflexivity|exact H]. Qed.

Lemma section_file_fuel h fuel fs p : readable h fuel fs -> parse_section_file h fuel fs p <> OutOfFuel.
Proof.
  intros R H. unfold parse_section_file in H. apply fuel_ret in H as (bs & Hb & H); [|apply ret_ok_or]. apply ok_or_iff in Hb.
  destruct (R p bs Hb) as (R1 & R2). apply fuel_bind in H as [H|(st & Hs & H)]; [contradiction|].
  destruct (N.eqb _ _); [|discriminate H]. apply fuel_ret in H as (n & _ & H); [|apply ret_ok_or].
  now apply (proj2 (R2 st Hs)) in H.
Qed.
Lemma notebook_terminates sanitise h fuel fs base n :
  readable h fuel fs -> shallow fs base n -> forall d ms last, last <> RootDir -> length ms <= n -> n < d + length ms ->
  parse_notebook sanitise h d fuel fs (base ++ map Normal ms ++ [last]) <> OutOfFuel.
Proof.
  intros R S. induction d as [|d IH]; intros ms last Hl Lm Ld H; [lia|]. rewrite notebook_step in H.
  rewrite app_assoc, parent_snoc in H by exact Hl. cbn [ok_or rbind] in H.
  apply fuel_ret in H as (bs & Hb & H); [|apply ret_ok_or]. apply ok_or_iff in Hb.
  destruct (R _ bs Hb) as (R1 & R2). apply fuel_bind in H as [H|(st & Hs & H)]; [contradiction|].
  destruct (N.eqb _ _); [|discriminate H]. apply fuel_bind in H as [H|((names & c) & _ & H)]; [now apply (proj1 (R2 st Hs)) in H|].
  apply fuel_ret in H as (ps & Hps & H); [|apply ret_map_res; intros; apply resolve_ret].
  apply fuel_bind in H as [H|(es & _ & H)]; [|discriminate H]. apply fuel_map in H as (q & Hq & H).
  destruct (shown_in _ _ _ _ _ _ Hps Hq) as (ns & -> & Hn & He & _). rewrite <- app_assoc, <- map_app in *.
  unfold load_entry in H. destruct (fs_is_file _ _).
  - apply fuel_bind in H as [H|(s & _ & H)]; [|discriminate H]. now apply section_file_fuel in H.
  - apply fuel_ret in H as (dn & _ & H); [|apply ret_ok_or]. apply fuel_ret in H as (files & _ & H); [|apply ret_ok_or].
    apply fuel_ret in H as (toc & _ & H); [|apply find_ret]. apply fuel_bind in H as [H|(g & _ & H)]; [|discriminate H].
    specialize (S _ He). rewrite <- app_assoc in H. revert H. apply IH; [discriminate|exact S|].
    rewrite app_length in *. destruct ns; [easy|]. cbn in *. lia.
Qed.

(** ** Trees *)
Fixpoint height (t : tree) : nat :=
  match t with
  | File => 0
  | Directory es => S (list_max (map (fun e => height (snd e)) es))
  end.
Lemma list_max_in l x : In x l -> x <= list_max l.
Proof.
  intros H. assert (F : Forall (fun y => y <= list_max l) l) by now apply list_max_le.
  rewrite Forall_forall in F. auto.
Qed.
Lemma child_height t n c : child t n = Some c -> height c < height t.
Proof.
  destruct t as [|es]; [discriminate|]. cbn. intros H. destruct (find _ es) as [(m, c')|] eqn:E; [|discriminate H].
  injection H as ->. apply find_some in E as (E & _). apply (in_map (fun e => height (snd e))) in E. apply list_max_in in E. cbn in E. lia.
Qed.
Lemma walk_names t : forall above ns, walk above t (map Normal ns) <> None -> length ns <= height t.
Proof.
  intros above ns. revert above t. induction ns as [|n ns IH]; intros above t H; cbn in *; [lia|].
  destruct (child t n) as [c|] eqn:E; [|easy]. apply child_height in E. apply IH in H. lia.
Qed.
Lemma walk_app p q : forall above t, walk above t (p ++ q) <> None ->
  exists above' t', walk above' t' q <> None /\ forall r, walk above t (p ++ r) = walk above' t' r.
Proof.
  induction p as [|c p IH]; intros above t H; [exists above, t; auto|]. destruct c as [| | |n]; cbn in *.
  - apply (IH _ _ H).
  - apply (IH _ _ H).
  - destruct above; apply (IH _ _ H).
  - destruct (child t n); [apply (IH _ _ H)|easy].
Qed.
Lemma tree_shallow fs above cwd base : without_links fs above cwd -> exists n, shallow fs base n.
Proof.
  intros W. destruct (walk above cwd base) eqn:E.
  - destruct (walk_app base [] above cwd) as (a & t' & _ & Ht); [rewrite app_nil_r; congruence|].
    exists (height t'). intros ns Hn. apply W in Hn. rewrite Ht in Hn. now apply walk_names in Hn.
  - exists 0. intros ns Hn. apply W in Hn. destruct (walk_app base _ above cwd Hn) as (a & t' & _ & Ht).
    specialize (Ht []). rewrite app_nil_r, E in Ht. discriminate Ht.
Qed.

(** ** Crashes *)
Lemma find_no_panic files : find_toc files <> Panic.
Proof. apply ret_no_crash, find_ret. Qed.
Lemma open_no_panic h fuel bs : open_store h fuel bs <> Panic.
Proof.
  intros H. unfold open_store in H. apply crash_bind in H as [H|(pg & _ & H)].
  - unfold run in H. apply crash_bind in H as [H|([pg r] & _ & H)]; [|discriminate H].
    destruct (PackageFacts.good_total _ _ good_packaging bs) as [(x & r & T)|(e & T)]; congruence.
  - now apply parse_store_no_panic in H.
Qed.
Lemma section_file_crash h fuel fs p : parse_section_file h fuel fs p = Panic ->
  exists bs st c sp id, fs_read fs p = Some bs /\ open_store h fuel bs = Ok st /\ object_space st c = Some sp /\
    (short_list_format sp id \/ ink_shortage sp id).
Proof.
  unfold parse_section_file. intros H. apply crash_ret in H as (bs & Hb & H); [|apply ret_ok_or]. apply ok_or_iff in Hb.
  apply crash_bind in H as [H|(st & Hs & H)]; [now apply open_no_panic in H|]. destruct (N.eqb _ _); [|discriminate H].
  apply crash_ret in H as (n & _ & H); [|apply ret_ok_or]. apply section_panic in H as (c & sp & id & Ho & H).
  exists bs, st, c, sp, id. auto.
Qed.
Lemma notebook_crash sanitise h fuel fs d : forall p, parse_notebook sanitise h d fuel fs p = Panic ->
  exists q, fs_is_file fs q = true /\ parse_section_file h fuel fs q = Panic.
Proof.
  induction d as [|d IH]; intros p H; [discriminate H|]. rewrite notebook_step in H.
  apply crash_ret in H as (bs & Hb & H); [|apply ret_ok_or].
  apply crash_bind in H as [H|(st & Hs & H)].
  { now apply open_no_panic in H. }
  destruct (N.eqb _ _); [|discriminate H]. apply crash_ret in H as (base & _ & H); [|apply ret_ok_or].
  apply crash_bind in H as [H|((names & c) & _ & H)]; [now apply toc_no_panic in H|].
  apply crash_ret in H as (ps & Hps & H); [|apply ret_map_res; intros; apply resolve_ret].
  apply crash_bind in H as [H|(es & _ & H)]; [|discriminate H]. apply crash_map in H as (q & Hq & H).
  unfold load_entry in H. destruct (fs_is_file fs q) eqn:F.
  - apply crash_bind in H as [H|(s & _ & H)]; [|discriminate H]. eauto.
  - apply crash_ret in H as (dn & _ & H); [|apply ret_ok_or]. apply crash_ret in H as (files & _ & H); [|apply ret_ok_or].
    apply crash_ret in H as (toc & _ & H); [|apply find_ret]. apply crash_bind in H as [H|(g & _ & H)]; [|discriminate H].
    now apply IH in H.
Qed.

(** ** Kinds of files *)
Lemma notebook_kind sanitise h d fuel fs p nb : parse_notebook sanitise h d fuel fs p = Ok nb ->
  exists bs st, fs_read fs p = Some bs /\ open_store h fuel bs = Ok st /\ st_schema st = toc_schema.
Proof.
  destruct d as [|d]; intros H; [discriminate H|]. rewrite notebook_step in H. apply bind_ok in H as (bs & Hb & H). apply ok_or_iff in Hb.
  apply bind_ok in H as (st & Hs & H). destruct (N.eqb _ _) eqn:E; [|discriminate H]. apply N.eqb_eq in E. eauto.
Qed.
Lemma notebook_other_kind sanitise h d fuel fs p bs st : fs_read fs p = Some bs -> open_store h fuel bs = Ok st ->
  st_schema st <> toc_schema -> parse_notebook sanitise h (S d) fuel fs p = Err NotATocFile.
Proof.
  intros Hb Hs E. rewrite notebook_step, Hb. cbn [ok_or rbind]. rewrite Hs. cbn [rbind]. apply N.eqb_neq in E. now rewrite E.
Qed.
Lemma section_kind h fuel fs p s : parse_section_file h fuel fs p = Ok s ->
  exists bs st, fs_read fs p = Some bs /\ open_store h fuel bs = Ok st /\ st_schema st = section_schema.
Proof.
  intros H. unfold parse_section_file in H. apply bind_ok in H as (bs & Hb & H). apply ok_or_iff in Hb.
  apply bind_ok in H as (st & Hs & H). destruct (N.eqb _ _) eqn:E; [|discriminate H]. apply N.eqb_eq in E. eauto.
Qed.
Lemma section_other_kind h fuel fs p bs st : fs_read fs p = Some bs -> open_store h fuel bs = Ok st ->
  st_schema st <> section_schema -> parse_section_file h fuel fs p = Err NotASectionFile.
Proof.
  intros Hb Hs E. unfold parse_section_file. rewrite Hb. cbn [ok_or rbind]. rewrite Hs. cbn [rbind]. apply N.eqb_neq in E. now rewrite E.
Qed.
Lemma buffer_kind h fuel bs n s : parse_section_buffer h fuel bs n = Ok s ->
  exists st, open_store h fuel bs = Ok st /\ st_schema st = section_schema.
Proof.
  intros H. unfold parse_section_buffer in H.
  apply bind_ok in H as (st & Hs & H). destruct (N.eqb _ _) eqn:E; [|discriminate H]. apply N.eqb_eq in E. eauto.
Qed.
Lemma buffer_other_kind h fuel bs n st : open_store h fuel bs = Ok st ->
  st_schema st <> section_schema -> parse_section_buffer h fuel bs n = Err NotASectionFile.
Proof. intros Hs E. unfold parse_section_buffer. rewrite Hs. cbn [rbind]. apply N.eqb_neq in E. now rewrite E. Qed.
Lemma one_kind sanitise h d fuel fuel' fs p nb bs n s :
  parse_notebook sanitise h d fuel fs p = Ok nb -> fs_read fs p = Some bs -> parse_section_buffer h fuel' bs n <> Ok s /\ parse_section_file h fuel' fs p <> Ok s.
Proof.
  intros H Hb. apply notebook_kind in H as (bs' & st & Hb' & Hs & E). rewrite Hb in Hb'. injection Hb' as <-.
  split; intros K; [apply buffer_kind in K as (st' & Hs' & E')|apply section_kind in K as (bs' & st' & Hb' & Hs' & E'); rewrite Hb in Hb'; injection Hb' as <-];
    assert (st = st') by (apply (opens_fun h bs); eexists; eassumption); subst st'; rewrite E in E'; discriminate E'.
Qed.
Lemma section_is_buffer h fuel fs p bs base n : fs_read fs p = Some bs -> ends_in p base (Normal n) ->
  parse_section_file h fuel fs p = parse_section_buffer h fuel bs n.
Proof.
  intros Hb He. unfold parse_section_file, parse_section_buffer. rewrite Hb. cbn [ok_or rbind].
  assert (E : file_name p = Some n) by (apply file_name_iff; eauto). rewrite E. reflexivity.
Qed.

(** ** A notebook in the current directory *)
Lemma bare_name sanitise h d fuel fs n nb :
  fs_canonicalize fs [] = None -> parse_notebook sanitise h d fuel fs [Normal n] = Ok nb -> nb_entries nb = [].
Proof.
  intros Hc H. destruct d as [|d]; [discriminate H|]. rewrite notebook_step in H. apply bind_ok in H as (bs & _ & H).
  apply bind_ok in H as (st & _ & H). destruct (N.eqb _ _); [|discriminate H].
  apply bind_ok in H as (base & Hp & H). injection Hp as <-. apply bind_ok in H as ((names & c) & _ & H).
  apply bind_ok in H as (ps & Hps & H). apply bind_ok in H as (es & Hes & H). injection H as <-. cbn.
  destruct (shown_paths fs ps) as [|q qs] eqn:E; [now injection Hes as <-|].
  destruct (shown_in sanitise fs [] names ps q Hps) as (ns & _ & _ & He & Hct); [rewrite E; now left|].
  destruct (Hct He) as (cb & cp & Hb & _). congruence.
Qed.

(** ** What a notebook can depend on *)
Lemma map_res_ext_in {A B} (f g : A -> res B) l : (forall a, In a l -> f a = g a) -> map_res f l = map_res g l.
Proof.
  intros H. induction l as [|a l IH]; [reflexivity|]. cbn. rewrite (H a) by now left. destruct (g a); [|reflexivity..]. cbn.
  rewrite IH; [reflexivity|]. intros b Hb. apply H. now right.
Qed.
Lemma filter_ext_in2 {A} (f g : A -> bool) l : (forall a, In a l -> f a = g a) -> filter f l = filter g l.
Proof. intros H. now apply filter_ext_in. Qed.
Lemma resolve_alike sanitise base fs fs' ms e : alike_inside base fs fs' ->
  resolve_entry_path sanitise fs (base ++ map Normal ms) e = resolve_entry_path sanitise fs' (base ++ map Normal ms) e.
Proof.
  intros (H & _ & _). unfold resolve_entry_path. destruct (is_absolute e) eqn:Ab; [reflexivity|].
  rewrite components_relative by exact Ab. destruct (sanitize_components _ _) as [q| | |] eqn:Eq; try reflexivity. cbn [rbind].
  apply sanitize_iff in Eq as (ns & _ & _ & ->). destruct ns as [|n ns]; [reflexivity|]. cbn [map].
  change (Normal n :: map Normal ns) with (map Normal (n :: ns)). rewrite <- app_assoc, <- map_app.
  destruct (H (ms ++ n :: ns)) as (-> & _ & -> & _). destruct (H ms) as (_ & _ & -> & _). reflexivity.
Qed.
Lemma section_alike h fuel fs fs' p : fs_read fs p = fs_read fs' p -> parse_section_file h fuel fs p = parse_section_file h fuel fs' p.
Proof. intros H. unfold parse_section_file. now rewrite H. Qed.
Lemma notebook_alike sanitise h fuel base fs fs' : alike_inside base fs fs' -> forall d ms last,
  last <> RootDir ->
  fs_read fs (base ++ map Normal ms ++ [last]) = fs_read fs' (base ++ map Normal ms ++ [last]) ->
  (ms = [] \/ exists cb cm, fs_canonicalize fs base = Some cb /\ fs_canonicalize fs (base ++ map Normal ms) = Some cm /\ below_path cm cb) ->
  parse_notebook sanitise h d fuel fs (base ++ map Normal ms ++ [last]) =
  parse_notebook sanitise h d fuel fs' (base ++ map Normal ms ++ [last]).
Proof.
  intros A. pose proof A as (A1 & A2 & A3). induction d as [|d IH]; intros ms last Hl Hr Hm; [reflexivity|].
  rewrite app_assoc in Hr. rewrite !notebook_step, app_assoc, Hr, parent_snoc by exact Hl. cbn [ok_or rbind].
  destruct (fs_read fs' _) as [bs|]; [|reflexivity]. cbn [ok_or rbind]. destruct (open_store h fuel bs) as [st| | |]; try reflexivity. cbn [rbind].
  destruct (N.eqb _ _); [|reflexivity]. destruct (parse_toc _ _) as [(names, c)| | |]; try reflexivity. cbn [rbind].
  rewrite (map_res_ext_in _ (resolve_entry_path sanitise fs' (base ++ map Normal ms))) by (intros; now apply resolve_alike).
  destruct (map_res _ names) as [ps| | |] eqn:Eps; try reflexivity. cbn [rbind].
  assert (Eps' : map_res (resolve_entry_path sanitise fs (base ++ map Normal ms)) names = Ok ps).
  { rewrite <- Eps. apply map_res_ext_in. intros; now apply resolve_alike. }
  assert (Es : shown_paths fs ps = shown_paths fs' ps).
  { unfold shown_paths. f_equal. apply filter_ext_in. intros q Hq. destruct (map_in_ok _ _ _ _ Eps' Hq) as (e & _ & Er).
    apply resolved in Er as (ns & -> & _). rewrite <- app_assoc, <- map_app. apply A1. }
  rewrite <- Es. erewrite map_res_ext_in; [reflexivity|]. intros q Hq.
  destruct (shown_in _ _ _ _ _ _ Eps' Hq) as (ns & -> & Hn & He & Hc). specialize (Hc He) as (cb & cp & Hcb & Hcp & Hbl).
  rewrite <- app_assoc, <- map_app in *.
  assert (In_ : exists cb cm, fs_canonicalize fs base = Some cb /\ fs_canonicalize fs (base ++ map Normal (ms ++ ns)) = Some cm /\ below_path cm cb).
  { destruct Hm as [->|(cb0 & cm & Hb0 & Hcm & Hbl0)].
    - cbn [map] in Hcb. rewrite app_nil_r in Hcb. eauto.
    - rewrite Hcm in Hcb. injection Hcb as <-. exists cb0, cp. repeat split; auto. eapply below_trans; eauto. }
  unfold load_entry. destruct (A1 (ms ++ ns)) as (_ & F & _ & D). rewrite F, D. destruct (fs_is_file fs' _).
  - erewrite section_alike; [reflexivity|]. destruct In_ as (cb0 & cm & I1 & I2 & I3). eapply A2; eauto.
  - destruct (file_name _) as [dn|]; [|reflexivity]. cbn [ok_or rbind]. destruct (fs_read_dir fs' _) as [files|]; [|reflexivity]. cbn [ok_or rbind].
    destruct (find_toc files) as [toc| | |] eqn:Et; try reflexivity. cbn [rbind]. apply find_iff in Et as (_ & _ & _ & Ht & _).
    rewrite <- app_assoc. rewrite IH; [reflexivity|discriminate| |right; exact In_].
    now apply A3.
Qed.
