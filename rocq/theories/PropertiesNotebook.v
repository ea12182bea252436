(** Property theorems for notebooks: the table of contents (C25), paths (C26),
    termination (C27, C31), kinds of files (C28), crashes (C50), contents (C51),
    confinement (C52), relative paths (C53) and files against buffers (C54). *)
From Coq Require Import Lia Permutation Relations.
From Verif Require Import Base Codec Package PropSet PropIds Store Shapes Props Nodes Doc SpecCodec SpecStore SpecNodes SpecDoc
  NodesProofs NodesProofs2 DocProofs DocProofs4 DocProofs5 DocProofs6 ExampleFile PropertiesStore ExampleSection PropertiesDoc
  SpecNotebook Notebook NotebookProofs NotebookProofs2 NotebookProofs3 ExampleNotebook LinkProofs.

Definition toc_of (bs : list N) : space := st_data_root (store_of bs).
Definition sp_sample : space := Eval vm_compute in toc_of sample_toc.
Ltac computes := repeat match goal with |- _ /\ _ => split end; vm_compute; reflexivity.
Definition same (n : name) : name := n.

(** ** C25 *)
(** The names returned are those described in SpecNotebook.v: those of the tree,
    stably sorted by ordering id, adjacent repetitions dropped. *)
Theorem C25_names : forall sp names c,
  (exists fuel, parse_toc fuel sp = Ok (names, c)) <-> toc_is sp names c.
Proof.
  exact (fun sp names c => conj (fun H => match H with ex_intro _ f H => proj1 (toc_settles sp names c) f H end)
    (fun H => match proj2 (toc_settles sp names c) H with ex_intro _ k H => ex_intro _ k (H k (le_n k)) end)).
Qed.
Print Assumptions C25_names.
(** Sorting has one result. *)
Theorem C25_one_order : forall ts r r', stably_sorted ts r -> stably_sorted ts r' -> r = r'.
Proof. exact (fun ts r r' H H' => eq_trans (stable_unique ts r H) (eq_sym (stable_unique ts r' H'))). Qed.
Print Assumptions C25_one_order.
Theorem C25_no_name_lost : forall f sp names c id ts,
  parse_toc f sp = Ok (names, c) -> content_root sp = Some id -> listing sp id ts ->
  forall n, In n names <-> exists k, In (k, n) ts.
Proof. exact names_lost_not. Qed.
Print Assumptions C25_no_name_lost.
Theorem C25_no_neighbours_equal : forall f sp names c i n m, parse_toc f sp = Ok (names, c) ->
  nth_error names i = Some n -> nth_error names (S i) = Some m -> n <> m.
Proof. exact toc_adjacent. Qed.
Print Assumptions C25_no_neighbours_equal.
(** A name without an ordering id is an error. *)
Theorem C25_unnumbered : forall f sp id o d n,
  get_object sp id = Some o -> toc_object o d -> tc_filename d = Some n -> tc_ordering_id d = None ->
  parse_toc_entry (S f) sp id = Err MalformedOneNoteData.
Proof. exact unnumbered. Qed.
Print Assumptions C25_unnumbered.
(** Ids 7, 5, 2, 7, 9 in tree order; the second name of id 7 stays second. *)
Example C25_example : open_store order_id 3 sample_toc = Ok (store_of sample_toc) /\
  parse_toc 3 sp_sample = Ok ([name_a; recycle_bin; name_one; [99]; name_one], Some (Color 255 1 2 3)) /\
  parse_toc_entry 3 sp_sample (xid 101) =
    Ok (TocEntry [(7, name_one); (5, recycle_bin); (2, name_a); (7, [99]); (9, name_one)] (Some (Color 255 1 2 3))) /\
  content_root sp_sample = Some (xid 101).
Proof. computes. Qed.
Example C25_unnumbered_example : let sp := toc_of (toc_file [obj 101 0x20001 [(0x1D6B, utf16 [97])] []]) in
  exists o d, get_object sp (xid 101) = Some o /\ toc_object o d /\ tc_filename d = Some [97] /\ tc_ordering_id d = None.
Proof.
  eexists _, _. split; [vm_compute; reflexivity|]. split; [apply toc_ok; vm_compute; reflexivity|]. split; reflexivity.
Qed.
(** The expectation that every name is listed once is false. *)
Theorem C25_unique_refuted : exists bs st names c, open_store order_id 3 bs = Ok st /\
  parse_toc 3 (st_data_root st) = Ok (names, c) /\ ~ NoDup names.
Proof.
  exists sample_toc. eexists _, _, _. split; [vm_compute; reflexivity|]. split; [vm_compute; reflexivity|].
  intros H. do 2 (apply NoDup_cons_iff in H as (_ & H)). apply NoDup_cons_iff in H as (H & _). apply H. right; left; reflexivity.
Qed.
Print Assumptions C25_unique_refuted.

(** ** C31, tables of contents *)
Theorem C31_toc_terminates : forall sp f, no_toc_loop sp -> (length (sp_objects sp) < f)%nat -> parse_toc f sp <> OutOfFuel.
Proof. exact toc_terminates. Qed.
Print Assumptions C31_toc_terminates.
Theorem C31_toc_loop_gives_no_result : forall f sp id a r, content_root sp = Some id ->
  clos_refl_trans _ (below sp) id a -> clos_trans _ (below sp) a a -> parse_toc f sp <> Ok r.
Proof. exact toc_loop_no_result. Qed.
Print Assumptions C31_toc_loop_gives_no_result.
(** The sample has no loop: every object below another has a greater number. *)
Example C31_toc_example : no_toc_loop sp_sample /\ below sp_sample (xid 101) (xid 103).
Proof.
  split.
  - assert (S : forall a b, below sp_sample a b -> eg_value a < eg_value b).
    { intros a b (o & d & Ho & Hd & Hn & Hb). apply toc_ok in Hd. revert b Hb.
      assert (K : forallb (fun e => match toc_parse (snd e) with Ok t => forallb (fun b => eg_value (fst e) <? eg_value b) (tc_children t) | _ => true end)
                    (sp_objects sp_sample) = true) by (vm_compute; reflexivity).
      rewrite forallb_forall in K. unfold get_object in Ho. apply (StoreProofs.alookup_in exguid_eqb PackageRT.exguid_eqb_eq) in Ho.
      specialize (K _ Ho). cbn [fst snd] in K. rewrite Hd in K. rewrite forallb_forall in K. intros b Hb. now apply N.ltb_lt, K. }
    intros a H. assert (L : forall x y, clos_trans _ (below sp_sample) x y -> eg_value x < eg_value y).
    { intros x y T. induction T as [x y T|x y z _ IH _ IH']; [now apply S|lia]. }
    apply L in H. lia.
  - eexists _, _. split; [vm_compute; reflexivity|]. split; [apply toc_ok; vm_compute; reflexivity|]. split; [reflexivity|]. right; left; reflexivity.
Qed.
(** A folder that contains itself. *)
Definition toc_loop : list N := toc_file [toc_folder_obj 101 [101]].
Definition sp_toc_loop : space := Eval vm_compute in toc_of toc_loop.
Theorem C31_toc_termination_refuted : exists bs st, open_store order_id 3 bs = Ok st /\ (length bs < 2000)%nat /\
  forall fuel, parse_toc fuel (st_data_root st) = OutOfFuel.
Proof.
  exists toc_loop, (store_of toc_loop). split; [vm_compute; reflexivity|]. split; [apply Nat.ltb_lt; vm_compute; reflexivity|].
  replace (st_data_root (store_of toc_loop)) with sp_toc_loop by (vm_compute; reflexivity).
  intros fuel. unfold parse_toc. step (content_root sp_toc_loop). cbn [ok_or rbind].
  assert (L : parse_toc_entry fuel sp_toc_loop (ExGuid 225 101) = OutOfFuel).
  { induction fuel as [|f IH]; [reflexivity|]. cbn [parse_toc_entry]. step (need_object (ExGuid 225 101) sp_toc_loop).
    match goal with |- context [toc_parse ?o] => step (toc_parse o) end. cbn [tc_filename tc_children map_res]. rewrite IH. reflexivity. }
  rewrite L. reflexivity.
Qed.
Print Assumptions C31_toc_termination_refuted.

(** ** C26 *)
Theorem C26_confined : forall sanitise fs base e p, resolve_entry_path sanitise fs base e = Ok p ->
  exists ns, p = base ++ map Normal ns /\ ns <> [] /\
    Forall (fun n => n <> [] /\ n <> [46] /\ n <> [46; 46] /\ ~ In 47 n) ns /\
    (fs_exists fs p = true -> exists cb cp rest,
       fs_canonicalize fs base = Some cb /\ fs_canonicalize fs p = Some cp /\ cp = cb ++ rest).
Proof.
  exact (fun sanitise fs base e p H => match resolved sanitise fs base e p H with
    | ex_intro _ ns (conj A (conj B (conj C D))) => ex_intro _ ns (conj A (conj B (conj C (fun E => match D E with
      | ex_intro _ cb (ex_intro _ cp (conj F (conj G (ex_intro _ r K)))) => ex_intro _ cb (ex_intro _ cp (ex_intro _ r (conj F (conj G K)))) end))))
    end).
Qed.
Print Assumptions C26_confined.
(** Exactly which names are accepted, and where they lead. *)
Theorem C26_exactly : forall sanitise fs base e p,
  resolve_entry_path sanitise fs base e = Ok p <-> resolves sanitise fs base e p.
Proof. exact resolve_ok. Qed.
Print Assumptions C26_exactly.
Theorem C26_otherwise_invalid : forall sanitise fs base e,
  resolve_entry_path sanitise fs base e = Err InvalidPath \/ exists p, resolve_entry_path sanitise fs base e = Ok p.
Proof. exact resolve_cases. Qed.
Print Assumptions C26_otherwise_invalid.
(** Rejected: absolute names, names of nothing but "" and ".", names with a "..",
    names the sanitiser would change. *)
Theorem C26_rejects : forall sanitise fs base e ws, pieces e ws ->
  (hd_error e = Some 47 \/ Forall (fun w => w = [] \/ w = [46]) ws \/ In [46; 46] ws \/
   exists w, In w ws /\ not_dot w /\ sanitise w <> w) ->
  resolve_entry_path sanitise fs base e = Err InvalidPath.
Proof. exact rejects. Qed.
Print Assumptions C26_rejects.
(** "./a//a.one" is accepted below "/n"; "a/../a" and "/n" are not. *)
Example C26_example :
  resolve_entry_path same sample_fs home [46; 47; 97; 47; 47; 97; 46; 111; 110; 101] = Ok (home ++ [Normal name_a; Normal name_one]) /\
  resolve_entry_path same sample_fs home name_a = Ok (home ++ [Normal name_a]) /\ fs_exists sample_fs (home ++ [Normal name_a]) = true /\
  pieces [97; 47; 46; 46; 47; 97] [[97]; [46; 46]; [97]] /\ pieces [47; 110] [[]; [110]] /\
  resolve_entry_path same (link_fs None) home name_toc = Ok (home ++ [Normal name_toc]).
Proof.
  do 3 (split; [vm_compute; reflexivity|]).
  split; [|split; [|vm_compute; reflexivity]]; (split; [discriminate|split; [|reflexivity]]); repeat constructor; cbn; intuition discriminate.
Qed.

(** ** C27 *)
(** One level per further name. *)
Theorem C27_terminates : forall sanitise h fuel fs base last n depth,
  readable h fuel fs -> shallow fs base n -> last <> RootDir -> (n < depth)%nat ->
  parse_notebook sanitise h depth fuel fs (base ++ [last]) <> OutOfFuel.
Proof.
  exact (fun sanitise h fuel fs base last n depth R S L D =>
    notebook_terminates sanitise h fuel fs base n R S depth [] last L (Nat.le_0_l n) (eq_ind_r (fun k => (n < k)%nat) D (Nat.add_0_r depth))).
Qed.
Print Assumptions C27_terminates.
Theorem C27_without_links : forall fs above cwd base, without_links fs above cwd -> exists n, shallow fs base n.
Proof. exact tree_shallow. Qed.
Print Assumptions C27_without_links.

(** The sample is a tree, and its files can be read. *)
Definition sample_tree : tree :=
  Directory [([110], Directory [(name_toc, File); (name_one, File); (name_a, Directory [(name_toc, File)]); (recycle_bin, Directory [])])].
Lemma path_eqb_eq p q : path_eqb p q = true -> p = q.
Proof.
  unfold path_eqb. intros H. apply andb_prop in H as (L & H). apply Nat.eqb_eq in L.
  revert q L H. induction p as [|c p IH]; intros [|d q] L H; try discriminate L; [reflexivity|].
  cbn in H. apply andb_prop in H as (H1 & H2). apply component_eqb_eq in H1 as ->. f_equal. apply IH; [now injection L|exact H2].
Qed.
Lemma plain_exists files dirs p : fs_exists (plain_fs files dirs) p = true -> In p (map fst files ++ map fst dirs).
Proof.
  unfold plain_fs. cbn [fs_exists]. intros H. apply in_or_app. apply orb_prop in H as [H|H]; [left|right].
  - destruct (find _ files) as [(q, b)|] eqn:E; [|discriminate H]. apply find_some in E as (E & Q). cbn in Q. apply path_eqb_eq in Q as ->. now apply (in_map fst) in E.
  - destruct (find _ dirs) as [(q, b)|] eqn:E; [|discriminate H]. apply find_some in E as (E & Q). cbn in Q. apply path_eqb_eq in Q as ->. now apply (in_map fst) in E.
Qed.
Lemma plain_read files dirs p bs : fs_read (plain_fs files dirs) p = Some bs -> In bs (map snd files).
Proof.
  unfold plain_fs. cbn [fs_read]. intros H. destruct (find _ files) as [(q, b)|] eqn:E; [|discriminate H]. injection H as <-.
  apply find_some in E as (E & _). now apply (in_map snd) in E.
Qed.
Example C27_example : readable order_id 50 sample_fs /\ without_links sample_fs [] sample_tree.
Proof.
  split.
  - intros p bs H. apply plain_read in H. repeat (destruct H as [<-|H]; [split; [vm_compute; discriminate|]|]); [..|destruct H].
    all: intros st E; match type of E with ?t = _ => let v := eval vm_compute in t in assert (E' : t = v) by (vm_compute; reflexivity) end;
      rewrite E' in E; injection E as <-; split; [|intros n]; vm_compute; discriminate.
  - intros p H. apply plain_exists in H. cbn [map app sample_files sample_dirs] in H.
    repeat (destruct H as [<-|H]; [vm_compute; discriminate|]). destruct H.
Qed.

(** A directory with links to itself passes the containment check. If the system
    follows any number of links, loading never ends. *)
Theorem C27_terminates_refuted : forall sanitise fuel depth,
  (forall x, x = name_a \/ x = name_b -> sanitise x = x) -> (3 <= fuel)%nat ->
  parse_notebook sanitise order_id depth fuel (link_fs None) (home ++ [Normal name_toc]) = OutOfFuel.
Proof. exact (fun s fuel d Hs Hf => link_forever s fuel Hs Hf d [] (Forall_nil _)). Qed.
Print Assumptions C27_terminates_refuted.
(** If it follows [limit] links in a path, one table of contents and two links make
    2^(limit+1) - 2 section groups. *)
Theorem C27_exponential : forall sanitise fuel limit depth,
  (forall x, x = name_a \/ x = name_b -> sanitise x = x) -> (3 <= fuel)%nat -> (limit < depth)%nat ->
  exists nb, parse_notebook sanitise order_id depth fuel (link_fs (Some limit)) (home ++ [Normal name_toc]) = Ok nb /\
    (list_sum (map groups (nb_entries nb)) + 2 = 2 ^ (S limit))%nat.
Proof.
  exact (fun s fuel l d Hs Hf Hd => link_blowup s fuel l Hs Hf l d [] (Forall_nil _) (eq_sym (Nat.add_0_r l)) Hd).
Qed.
Print Assumptions C27_exponential.
Example C27_link_example : resolve_entry_path same (link_fs None) home name_a = Ok (home ++ [Normal name_a]) /\
  fs_canonicalize (link_fs None) (home ++ [Normal name_a]) = Some home /\ (length link_toc < 2000)%nat.
Proof. split; [vm_compute; reflexivity|]. split; [vm_compute; reflexivity|]. apply Nat.ltb_lt. vm_compute. reflexivity. Qed.

(** ** C28 *)
Theorem C28_notebook : forall sanitise h depth fuel fs p nb, parse_notebook sanitise h depth fuel fs p = Ok nb ->
  exists bs st, fs_read fs p = Some bs /\ open_store h fuel bs = Ok st /\
    st_schema st = 0xE4DBFD38E5C7408BA8A10E7B421E1F5F.
Proof. exact notebook_kind. Qed.
Print Assumptions C28_notebook.
Theorem C28_not_a_toc : forall sanitise h depth fuel fs p bs st,
  fs_read fs p = Some bs -> open_store h fuel bs = Ok st -> st_schema st <> 0xE4DBFD38E5C7408BA8A10E7B421E1F5F ->
  parse_notebook sanitise h (S depth) fuel fs p = Err NotATocFile.
Proof. exact notebook_other_kind. Qed.
Print Assumptions C28_not_a_toc.
Theorem C28_section : forall h fuel fs p s, parse_section_file h fuel fs p = Ok s ->
  exists bs st, fs_read fs p = Some bs /\ open_store h fuel bs = Ok st /\
    st_schema st = 0x1F937CB4B26F445FB9F817E20160E461.
Proof. exact section_kind. Qed.
Print Assumptions C28_section.
Theorem C28_not_a_section : forall h fuel fs p bs st,
  fs_read fs p = Some bs -> open_store h fuel bs = Ok st -> st_schema st <> 0x1F937CB4B26F445FB9F817E20160E461 ->
  parse_section_file h fuel fs p = Err NotASectionFile.
Proof. exact section_other_kind. Qed.
Print Assumptions C28_not_a_section.
Theorem C28_buffer : forall h fuel bs n s, parse_section_buffer h fuel bs n = Ok s ->
  exists st, open_store h fuel bs = Ok st /\ st_schema st = 0x1F937CB4B26F445FB9F817E20160E461.
Proof. exact buffer_kind. Qed.
Print Assumptions C28_buffer.
Theorem C28_buffer_not_a_section : forall h fuel bs n st,
  open_store h fuel bs = Ok st -> st_schema st <> 0x1F937CB4B26F445FB9F817E20160E461 ->
  parse_section_buffer h fuel bs n = Err NotASectionFile.
Proof. exact buffer_other_kind. Qed.
Print Assumptions C28_buffer_not_a_section.
(** No file is both. *)
Theorem C28_not_both : forall sanitise h depth fuel fuel' fs p nb bs n s,
  parse_notebook sanitise h depth fuel fs p = Ok nb -> fs_read fs p = Some bs ->
  parse_section_buffer h fuel' bs n <> Ok s /\ parse_section_file h fuel' fs p <> Ok s.
Proof. exact one_kind. Qed.
Print Assumptions C28_not_both.
Definition is_ok {A} (r : res A) : bool := match r with Ok _ => true | _ => false end.
Example C28_example :
  is_ok (parse_notebook same order_id 3 50 sample_fs (home ++ [Normal name_toc])) = true /\
  is_ok (parse_section_file order_id 50 sample_fs (home ++ [Normal name_one])) = true /\
  parse_notebook same order_id 3 50 sample_fs (home ++ [Normal name_one]) = Err NotATocFile /\
  parse_section_file order_id 50 sample_fs (home ++ [Normal name_toc]) = Err NotASectionFile /\
  parse_section_buffer order_id 50 sample_toc name_one = Err NotASectionFile.
Proof. computes. Qed.

(** ** C50, notebooks *)
Theorem C50_notebook : forall sanitise h depth fuel fs p, parse_notebook sanitise h depth fuel fs p = Panic ->
  exists q bs st c sp id, fs_is_file fs q = true /\ fs_read fs q = Some bs /\ open_store h fuel bs = Ok st /\
    object_space st c = Some sp /\ (short_list_format sp id \/ ink_shortage sp id).
Proof.
  exact (fun s h d f fs p H => match notebook_crash s h f fs d p H with
    | ex_intro _ q (conj F K) => match section_file_crash h f fs q K with
      | ex_intro _ bs (ex_intro _ st (ex_intro _ c (ex_intro _ sp (ex_intro _ id (conj A B))))) =>
        ex_intro _ q (ex_intro _ bs (ex_intro _ st (ex_intro _ c (ex_intro _ sp (ex_intro _ id (conj F (conj A B)))))))
      end end).
Qed.
Print Assumptions C50_notebook.
(** One such section brings the whole notebook down. *)
Example C50_notebook_example : parse_notebook same order_id 3 50
  (plain_fs [(home ++ [Normal name_toc], sample_toc); (home ++ [Normal name_one], short_list_file)] [(home, [])])
  (home ++ [Normal name_toc]) = Panic.
Proof. vm_compute. reflexivity. Qed.

(** ** C51 *)
(** The notebooks returned are those described in SpecNotebook.v. *)
Theorem C51_notebook : forall sanitise h fs p es c,
  (exists depth fuel, parse_notebook sanitise h depth fuel fs p = Ok (Notebook_ es c)) <-> notebook_at sanitise h fs p es c.
Proof. exact notebook_iff. Qed.
Print Assumptions C51_notebook.
(** The sample: the recycle bin and the missing "c" are left out, the section listed
    twice is there twice. *)
Example C51_example : exists s c,
  parse_notebook same order_id 3 50 sample_fs (home ++ [Normal name_toc]) =
    Ok (Notebook_ [EnGroup name_a []; EnSection s; EnSection s] c) /\ se_display_name s = name_a /\ c = Some (Color 255 1 2 3).
Proof. eexists _, _. split; [vm_compute; reflexivity|]. split; reflexivity. Qed.

(** ** C52 *)
(** A notebook depends on nothing but the paths below its directory, the section
    files really inside it, and the tables of contents. *)
Theorem C52_depends_only : forall sanitise h depth fuel base last fs fs',
  alike_inside base fs fs' -> last <> RootDir -> fs_read fs (base ++ [last]) = fs_read fs' (base ++ [last]) ->
  parse_notebook sanitise h depth fuel fs (base ++ [last]) = parse_notebook sanitise h depth fuel fs' (base ++ [last]).
Proof.
  exact (fun s h d f base last fs fs' A L R => notebook_alike s h f base fs fs' A d [] last L R (or_introl eq_refl)).
Qed.
Print Assumptions C52_depends_only.
(** The sample and the same with a further file outside. *)
Example C52_example : alike_inside home sample_fs (plain_fs (sample_files ++ [(outside, [1; 2])]) sample_dirs) /\
  fs_read sample_fs outside = None /\
  fs_read (plain_fs (sample_files ++ [(outside, [1; 2])]) sample_dirs) outside = Some [1; 2].
Proof.
  assert (O : forall r, path_eqb (home ++ r) outside = false).
  { intros r. destruct (path_eqb (home ++ r) outside) eqn:E; [|reflexivity]. apply path_eqb_eq in E. discriminate E. }
  assert (F : forall r, find (fun f => path_eqb (home ++ r) (fst f)) (sample_files ++ [(outside, [1; 2])]) =
                        find (fun f => path_eqb (home ++ r) (fst f)) sample_files).
  { intros r. generalize sample_files. intros l. induction l as [|f l IH]; cbn [app find].
    - cbn [fst]. now rewrite O.
    - now rewrite IH. }
  split; [|split; reflexivity]. unfold alike_inside, sample_fs, plain_fs.
  cbn [fs_exists fs_is_file fs_canonicalize fs_read fs_read_dir].
  split; [intros ns; rewrite F; auto|]. split; [intros ns cb cp _ _ _|intros ns n _]; now rewrite F.
Qed.
(** Tables of contents are not checked: that of a section group may be a link out of
    the notebook, and is read. *)
Theorem C52_inside_refuted : exists fs fs' base p,
  p = base ++ [Normal name_toc] /\
  (forall q, fs_exists fs q = fs_exists fs' q /\ fs_is_file fs q = fs_is_file fs' q /\
     fs_canonicalize fs q = fs_canonicalize fs' q /\ fs_read_dir fs q = fs_read_dir fs' q) /\
  (forall q, fs_read fs q = fs_read fs' q \/
     exists cb cq, fs_canonicalize fs base = Some cb /\ fs_canonicalize fs q = Some cq /\ ~ below_path cq cb) /\
  parse_notebook same order_id 3 3 fs p <> parse_notebook same order_id 3 3 fs' p.
Proof.
  exists (linked_toc_fs empty_toc), (linked_toc_fs sample_section), home, (home ++ [Normal name_toc]). split; [reflexivity|].
  split; [|split].
  - intros q. unfold linked_toc_fs, plain_fs. cbn [fs_exists fs_is_file fs_canonicalize fs_read_dir find fst].
    destruct (path_eqb q (home ++ [Normal name_toc])), (path_eqb q (home ++ [Normal name_a; Normal name_toc])), (path_eqb q outside);
      repeat split; reflexivity.
  - intros q. unfold linked_toc_fs, plain_fs. cbn [fs_read fs_canonicalize find fst].
    destruct (path_eqb q (home ++ [Normal name_toc])) eqn:E1; [left; reflexivity|].
    destruct (path_eqb q (home ++ [Normal name_a; Normal name_toc])) eqn:E2.
    + right. exists home, outside. split; [reflexivity|]. split; [reflexivity|]. intros (r & K). discriminate K.
    + destruct (path_eqb q outside) eqn:E3; [|left; reflexivity]. apply path_eqb_eq in E3 as ->.
      right. exists home, outside. split; [reflexivity|]. split; [reflexivity|]. intros (r & K). discriminate K.
  - vm_compute. discriminate.
Qed.
Print Assumptions C52_inside_refuted.

(** ** C53 *)
(** The empty path has no canonical form. So a notebook given by a bare file name is
    never returned with entries. *)
Theorem C53_bare_file_name : forall sanitise h depth fuel fs n nb,
  fs_canonicalize fs [] = None -> parse_notebook sanitise h depth fuel fs [Normal n] = Ok nb -> nb_entries nb = [].
Proof. exact bare_name. Qed.
Print Assumptions C53_bare_file_name.
Theorem C53_relative_path_refuted : exists fs n,
  fs_read fs [Normal n] = fs_read sample_fs (home ++ [Normal n]) /\
  is_ok (parse_notebook same order_id 3 50 sample_fs (home ++ [Normal n])) = true /\
  is_ok (parse_notebook same order_id 3 50 fs [CurDir; Normal n]) = true /\
  parse_notebook same order_id 3 50 fs [Normal n] = Err InvalidPath.
Proof. exists bare_fs, name_toc. computes. Qed.
Print Assumptions C53_relative_path_refuted.
Example C53_example : fs_canonicalize bare_fs [] = None /\ fs_exists bare_fs [Normal name_one] = true /\
  parse_notebook same order_id 3 50 (plain_fs [([Normal name_toc], empty_toc)] []) [Normal name_toc] =
    Ok (Notebook_ [] (Some (Color 255 1 2 3))).
Proof. computes. Qed.

(** ** C54 *)
Theorem C54_file_is_buffer : forall h fuel fs p bs base n,
  fs_read fs p = Some bs -> p = base ++ [Normal n] ->
  parse_section_file h fuel fs p = parse_section_buffer h fuel bs n.
Proof. exact section_is_buffer. Qed.
Print Assumptions C54_file_is_buffer.
(** Given the path as a whole instead, the buffer reader takes it for the name: the
    section "/n/a.one" is then shown as "/n/a". *)
Theorem C54_whole_path_refuted : exists bs s s',
  parse_section_file order_id 9 (plain_fs [(home ++ [Normal name_one], bs)] []) (home ++ [Normal name_one]) = Ok s /\
  parse_section_buffer order_id 9 bs ([47; 110; 47] ++ name_one) = Ok s' /\
  se_display_name s = [97] /\ se_display_name s' = [47; 110; 47; 97].
Proof.
  exists sample_section. eexists _, _.
  split; [vm_compute; reflexivity|]. split; [vm_compute; reflexivity|]. split; reflexivity.
Qed.
Print Assumptions C54_whole_path_refuted.
Example C54_example : is_ok (parse_section_file order_id 50 sample_fs (home ++ [Normal name_one])) = true /\
  fs_read sample_fs (home ++ [Normal name_one]) = Some sample_section.
Proof. split; vm_compute; reflexivity. Qed.
