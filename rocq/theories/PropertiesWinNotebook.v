(** Property theorems: whole notebooks on Windows (C97). *)
From Coq Require Import Lia.
From Verif Require Import Base Codec Package PropSet Store Shapes Props Nodes Doc SpecCodec SpecStore SpecNodes SpecDoc ExampleFile PropertiesStore ExampleSection
  Notebook SpecNotebook NotebookProofs NotebookProofs2 ExampleNotebook PropertiesNotebook
  Windows SpecWindows WindowsProofs PropertiesWindows WinNotebook SpecWinNotebook WinNotebookProofs WinNotebookProofs2.

(** ** C97 *)
(** A directory that holds the same on Windows and on Unix is read as the same notebook,
    if no table of contents in it lists a name with a backslash. *)
Theorem C97_same : forall other sanitise h depth fuel W F base ubase ns t, windows_safe sanitise ->
  same_directory other W F base ubase -> no_backslash h fuel F ubase -> ns <> [] -> Forall wproper ns -> spells other base ns t ->
  w_parse_notebook other sanitise h depth fuel W t = parse_notebook sanitise h depth fuel F (ubase ++ map Normal ns).
Proof.
  intros other sanitise h depth fuel W F base ubase ns t Safe Same NB Nn Fn Sp.
  destruct (notebook_both other sanitise W F base ubase False Safe Same h fuel (or_intror NB) depth t (ubase ++ map Normal ns)) as [H|([] & _)]; [|exact H].
  now exists ns.
Qed.
Print Assumptions C97_same.
(** Without that, what Unix does not refuse for its path is the same on Windows, errors
    included. *)
Theorem C97_unless_refused : forall other sanitise h depth fuel W F base ubase ns t, windows_safe sanitise ->
  same_directory other W F base ubase -> ns <> [] -> Forall wproper ns -> spells other base ns t ->
  parse_notebook sanitise h depth fuel F (ubase ++ map Normal ns) = Err InvalidPath \/
  w_parse_notebook other sanitise h depth fuel W t = parse_notebook sanitise h depth fuel F (ubase ++ map Normal ns).
Proof.
  intros other sanitise h depth fuel W F base ubase ns t Safe Same Nn Fn Sp.
  destruct (notebook_both other sanitise W F base ubase True Safe Same h fuel (or_introl I) depth t (ubase ++ map Normal ns)) as [H|(_ & H)]; auto.
  now exists ns.
Qed.
Print Assumptions C97_unless_refused.
(** A section file is the same section. *)
Theorem C97_section : forall other h fuel W F base ubase ns t,
  same_directory other W F base ubase -> ns <> [] -> Forall wproper ns -> spells other base ns t ->
  w_parse_section_file other h fuel W t = parse_section_file h fuel F (ubase ++ map Normal ns).
Proof. intros other h fuel W F base ubase ns t Same Nn Fn Sp. apply (section_both other W F base ubase Same). now exists ns. Qed.
Print Assumptions C97_section.
(** For any path: a section is parsed exactly from a readable section file whose path ends
    in a name, which becomes the name of the section. *)
Theorem C97_section_exact : forall other h fuel W t s, ~ two_seps t ->
  w_parse_section_file other h fuel W t = Ok s <->
  exists cs n bs st, wcomponents other t = cs ++ [WNormal n] /\ wd_read W t = Some bs /\ open_store h fuel bs = Ok st /\
    st_schema st = 0x1F937CB4B26F445FB9F817E20160E461 /\ parse_section fuel st n = Ok s.
Proof. exact w_section_exact. Qed.
Print Assumptions C97_section_exact.
(** What is outside the directory of the table of contents does not matter. *)
Theorem C97_inside : forall other sanitise h depth fuel W W' t base, windows_safe sanitise ->
  ~ two_seps t -> w_parent other t = Some base -> walike_inside other base W W' -> wd_read W t = wd_read W' t ->
  w_parse_notebook other sanitise h depth fuel W t = w_parse_notebook other sanitise h depth fuel W' t.
Proof. intros. eapply notebook_inside; eauto. Qed.
Print Assumptions C97_inside.
(** One level per further name. *)
Theorem C97_terminates : forall other sanitise h depth fuel W t base n, windows_safe sanitise ->
  wreadable h fuel W -> wshallow other W base n ->
  (forall d l m, wd_read_dir W d = Some l -> In (Some m) l -> wproper m) ->
  ~ two_seps t -> w_parent other t = Some base -> (n < depth)%nat ->
  w_parse_notebook other sanitise h depth fuel W t <> OutOfFuel.
Proof. intros. eapply wnotebook_terminates; eauto. Qed.
Print Assumptions C97_terminates.

(** A Unix file system seen as the drive "C:". *)
Definition of_w (c : wcomponent) : component :=
  match c with WPrefix p => Normal p | WRoot => RootDir | WCur => CurDir | WParent => ParentDir | WNormal n => Normal n end.
Definition key (t : wtext) : path :=
  match wcomponents no_other t with WPrefix [67; 58] :: cs => map of_w cs | _ => [] end.
Definition names_of (p : path) : list name := flat_map (fun c => match c with Normal n => [n] | _ => [] end) p.
Definition shown (ns : list name) : wtext := match ns with [] => win_home | _ => win_home ++ 92 :: wjoin ns end.
Definition drive_of (F : filesystem) : wdisk :=
  WDisk (WFs (fun t => fs_exists F (key t))
             (fun t => if fs_exists F (key t) then Some (shown (tl (names_of (key t)))) else None))
        (fun t => fs_is_file F (key t)) (fun t => fs_read F (key t)) (fun t => fs_read_dir F (key t)).
Lemma key_spells ns t : spells no_other win_home ns t -> key t = home ++ map Normal ns.
Proof.
  intros (_ & _ & C). unfold key. rewrite C. change (wcomponents no_other win_home) with [WPrefix [67; 58]; WRoot; WNormal [110]].
  cbn [app map of_w home]. do 2 f_equal. now rewrite map_map.
Qed.
Lemma home_spells : spells no_other win_home [] win_home.
Proof.
  split; [|split; [|reflexivity]].
  - right. intros s c S. split; intro E; apply (f_equal (@rev N)) in E; rewrite rev_app_distr in E; cbn in E; [injection E as E _; subst c|discriminate E]; destruct S; discriminate.
  - intros (c & d & r & [->| ->] & _ & K); discriminate K.
Qed.
Lemma not_open : ~ open_ended win_home.
Proof.
  intros [H|[(b & c & H & S)|(c & _ & H)]]; try discriminate H. apply (f_equal (@rev N)) in H. rewrite rev_app_distr in H. cbn in H. injection H as H _. subst c. destruct S; discriminate.
Qed.
Lemma shown_spells ns : Forall wproper ns -> spells no_other win_home ns (shown ns).
Proof.
  destruct ns as [|n ns]; intro P; [exact home_spells|]. apply (placed_spells no_other win_home win_home [] (n :: ns)); [exact home_spells|discriminate|exact P|].
  right. split; [exact not_open|reflexivity].
Qed.
Lemma names_key ns t : spells no_other win_home ns t -> tl (names_of (key t)) = ns.
Proof.
  intro H. rewrite (key_spells ns t H). unfold names_of. cbn [home app flat_map tl]. induction ns as [|n ns IH]; cbn; [reflexivity|]. f_equal.
  clear. induction ns as [|n ns IH]; cbn; [reflexivity|now f_equal].
Qed.
Lemma same_drive files dirs : Forall (fun d => Forall wproper (snd d)) dirs ->
  same_directory no_other (drive_of (plain_fs files dirs)) (plain_fs files dirs) win_home home.
Proof.
  intro P. split; [intros ns t _ H; cbn [drive_of wd_fs wfs_exists wd_is_file wd_read wd_read_dir]; now rewrite (key_spells ns t H)..| |].
  - intros ms ns dir t Fm Fn Sd St. assert (Fa : Forall wproper (ms ++ ns)) by (apply Forall_app; auto).
    cbn [drive_of wd_fs wfs_canonicalize]. rewrite (names_key _ _ Sd), (names_key _ _ St), (key_spells _ _ Sd), (key_spells _ _ St).
    assert (Cu : forall p, fs_canonicalize (plain_fs files dirs) p = if fs_exists (plain_fs files dirs) p then Some p else None) by reflexivity.
    rewrite !Cu. pose proof (proj2 (proj2 (shown_spells ms Fm))) as C1. pose proof (proj2 (proj2 (shown_spells (ms ++ ns) Fa))) as C2.
    destruct (fs_exists _ (home ++ map Normal ms)); [|split; [intros (? & ? & ? & [=] & _)|intros (? & ? & [=] & _)]].
    destruct (fs_exists _ (home ++ map Normal (ms ++ ns))); [|split; [intros (? & ? & ? & _ & [=] & _)|intros (? & ? & _ & [=] & _)]].
    split; intros _; eexists _, _.
    + split; [reflexivity|]. split; [reflexivity|]. exists (map Normal ns). now rewrite map_app, app_assoc.
    + exists (map WNormal ns). split; [reflexivity|]. split; [reflexivity|]. now rewrite C1, C2, map_app, app_assoc.
  - intros t l n. cbn [drive_of wd_read_dir plain_fs fs_read_dir]. destruct (find _ dirs) as [(q, x)|] eqn:E; [|discriminate]. cbn. intros [= <-] I.
    apply in_map_iff in I as (m & [= <-] & I). apply find_some in E as (E & _). rewrite Forall_forall in P. specialize (P _ E). rewrite Forall_forall in P. now apply P.
Qed.
Definition proper_b (n : name) : bool :=
  forallb (fun c => negb ((c =? 47) || (c =? 92) || (c =? 58))) n && negb (name_eqb n [] || name_eqb n [46] || name_eqb n [46; 46]).
Lemma proper_b_ok n : proper_b n = true -> wproper n.
Proof.
  unfold proper_b. intro H. apply andb_prop in H as (H1 & H2). rewrite forallb_forall in H1. apply negb_true_iff in H2. rewrite !orb_false_iff in H2. destruct H2 as ((A & B) & C).
  split; [|split; [split; intros ->; discriminate|intros ->; discriminate]].
  intros c I. specialize (H1 c I). apply negb_true_iff in H1. rewrite !orb_false_iff, !N.eqb_neq in H1. unfold separator. lia.
Qed.
Lemma dirs_ok (dirs : list (path * list name)) : forallb (fun d => forallb proper_b (snd d)) dirs = true -> Forall (fun d => Forall wproper (snd d)) dirs.
Proof.
  intro H. rewrite forallb_forall in H. apply Forall_forall. intros d I. apply Forall_forall. intros n J. apply proper_b_ok. specialize (H d I). rewrite forallb_forall in H. now apply H.
Qed.
Definition win_toc : wtext := win_home ++ 92 :: name_toc.
Lemma win_toc_spells : spells no_other win_home [name_toc] win_toc.
Proof. apply (shown_spells [name_toc]). constructor; [|constructor]. apply proper_b_ok. reflexivity. Qed.

(** The sample notebook of C51 as "C:\n": the theorems apply to it, and it is loaded. *)
Example C97_example :
  windows_safe dropping /\ same_directory no_other (drive_of sample_fs) sample_fs win_home home /\ no_backslash order_id 50 sample_fs home /\
  spells no_other win_home [name_toc] win_toc /\ Forall wproper [name_toc] /\
  is_ok (w_parse_notebook no_other dropping order_id 3 50 (drive_of sample_fs) win_toc) = true.
Proof.
  split; [exact dropping_safe|]. split; [apply same_drive, dirs_ok; reflexivity|]. split; [|split; [exact win_toc_spells|split; [|vm_compute; reflexivity]]].
  - intros ns bs st names c R O T. apply plain_read in R.
    repeat (destruct R as [<-|R]; [revert T; vm_compute in O; injection O as <-; vm_compute; try discriminate; intros [= <- _];
      repeat constructor; intro I; repeat (destruct I as [I|I]; [discriminate I|]); destruct I|]). destruct R.
  - constructor; [|constructor]. apply proper_b_ok. reflexivity.
Qed.
Example C97_section_example :
  let W := drive_of (plain_fs [([RootDir; Normal [110]; ParentDir], sample_section); (home ++ [Normal name_one], sample_section)] []) in
  is_ok (w_parse_section_file no_other order_id 50 W (win_home ++ 92 :: name_one)) = true /\ ~ two_seps (win_home ++ 92 :: name_one) /\
  w_parse_section_file no_other order_id 50 W (win_home ++ [92; 46; 46]) = Err InvalidPath.
Proof. split; [vm_compute; reflexivity|]. split; [intros (c & d & r & [->| ->] & _ & E); discriminate E|vm_compute; reflexivity]. Qed.
(** Another file beside the directory: the notebook is the same, and reading it ends. *)
Definition sample_fs_more : filesystem := plain_fs (sample_files ++ [(outside, sample_toc)]) sample_dirs.
Example C97_inside_example :
  w_parent no_other win_toc = Some win_home /\ ~ two_seps win_toc /\ walike_inside no_other win_home (drive_of sample_fs) (drive_of sample_fs_more) /\
  wd_read (drive_of sample_fs) win_toc = wd_read (drive_of sample_fs_more) win_toc /\
  wd_read (drive_of sample_fs) [67; 58; 92; 115] <> wd_read (drive_of sample_fs_more) [67; 58; 92; 115].
Proof.
  assert (K : forall ns, path_eqb (home ++ map Normal ns) outside = false).
  { intro ns. unfold path_eqb. destruct ns; cbn; rewrite ?andb_false_r; reflexivity. }
  assert (R : forall ns, find (fun f => path_eqb (home ++ map Normal ns) (fst f)) (sample_files ++ [(outside, sample_toc)]) =
                         find (fun f => path_eqb (home ++ map Normal ns) (fst f)) sample_files).
  { intro ns. generalize sample_files. intro l. induction l as [|f l IH]; cbn [app find fst]; [now rewrite K|]. destruct (path_eqb _ _); [reflexivity|exact IH]. }
  split; [reflexivity|]. split; [intros (c & d & r & [->| ->] & _ & E); discriminate E|]. split; [|split; [reflexivity|vm_compute; discriminate]].
  split; [|split; [|split; [|split]]].
  - intros ns t _ S. cbn [drive_of wd_fs wfs_exists wfs_canonicalize wd_is_file wd_read_dir sample_fs sample_fs_more plain_fs fs_exists fs_is_file fs_read_dir].
    rewrite (key_spells _ _ S), R. auto.
  - intros ns t cb cp rest _ S _ _ _. cbn [drive_of wd_read sample_fs sample_fs_more plain_fs fs_read]. now rewrite (key_spells _ _ S), R.
  - intros ns n t _ _ S. cbn [drive_of wd_read sample_fs sample_fs_more plain_fs fs_read]. now rewrite (key_spells _ _ S), R.
  - intros ns t t' _ S S'. cbn [drive_of wd_fs wfs_canonicalize]. now rewrite (key_spells _ _ S), (key_spells _ _ S').
  - apply (sd_names _ _ _ _ _ (proj1 (proj2 C97_example))).
Qed.
Example C97_terminates_example : wreadable order_id 50 (drive_of sample_fs) /\ wshallow no_other (drive_of sample_fs) win_home 2.
Proof.
  split.
  - intros t bs R. apply (proj1 C27_example (key t)). exact R.
  - intros ns t _ S E. cbn [drive_of wd_fs wfs_exists] in E. rewrite (key_spells _ _ S) in E. apply plain_exists in E. cbn [map app sample_files sample_dirs fst] in E.
    destruct ns as [|a [|b [|c ns]]]; [cbn; lia..|]. exfalso. repeat (destruct E as [E|E]; [apply (f_equal (@length component)) in E; cbn in E; discriminate E|]). destruct E.
Qed.

(** A table of contents that lists "a\a.one". *)
Definition back_toc : list N := toc_file [toc_folder_obj 101 [102]; toc_entry_obj 102 1 (name_a ++ 92 :: name_one)].
Definition back_fs : filesystem :=
  plain_fs [(home ++ [Normal name_toc], back_toc); (home ++ [Normal name_a; Normal name_one], sample_section)]
           [(home, [name_toc; name_a]); (home ++ [Normal name_a], [name_one])].
(** So without the condition on backslashes the two systems differ: what Windows loads,
    Unix refuses. *)
Theorem C97_same_refuted : exists sanitise W F base ubase t s, windows_safe sanitise /\ same_directory no_other W F base ubase /\
  spells no_other base [name_toc] t /\
  w_parse_notebook no_other sanitise order_id 3 50 W t = Ok (Notebook_ [EnSection s] (Some (Color 255 1 2 3))) /\
  parse_notebook sanitise order_id 3 50 F (ubase ++ [Normal name_toc]) = Err InvalidPath.
Proof.
  exists dropping, (drive_of back_fs), back_fs, win_home, home, win_toc. eexists. split; [exact dropping_safe|].
  split; [apply same_drive, dirs_ok; reflexivity|]. split; [exact win_toc_spells|]. split; vm_compute; reflexivity.
Qed.
Print Assumptions C97_same_refuted.
