(** Property theorems for reading while the file system changes: C73 (what a notebook
    is made of), C74 (which files are touched) and C75 (crashes and termination). Every
    theorem is about an arbitrary [world]: an arbitrary file system at every moment. *)
From Coq Require Import Lia.
From Verif Require Import Base Codec Package PropSet Store Props Nodes Doc SpecCodec SpecStore SpecNodes SpecDoc DocProofs5
  Notebook SpecNotebook NotebookProofs2 NotebookProofs3 OnceProofs ExampleFile ExampleSection ExampleNotebook
  PropertiesStore PropertiesDoc PropertiesNotebook Timed SpecTimed TimedProofs TimedProofs2 TimedProofs3 ExampleTimed.

(** ** C73 *)
(** If nothing changes, this is the reading of the other theorems. *)
Theorem C73_still : forall sanitise h fs t depth fuel p,
  run_io (fun _ => fs) t (io_notebook sanitise h depth fuel p) = parse_notebook sanitise h depth fuel fs p.
Proof. exact stands_still. Qed.
Print Assumptions C73_still.
(** It is enough that what is looked at is, when it is looked at, as in [fs]. *)
Theorem C73_unchanged : forall sanitise h w t depth fuel p fs,
  (forall i q, nth_error (asked w t (io_notebook sanitise h depth fuel p)) i = Some q -> reply (w (t + i)%nat) q = reply fs q) ->
  run_io w t (io_notebook sanitise h depth fuel p) = parse_notebook sanitise h depth fuel fs p.
Proof. exact unchanged. Qed.
Print Assumptions C73_unchanged.
(** A section is that of its file at one moment. *)
Theorem C73_section : forall h w fuel t p, run_io w t (io_section h fuel p) = parse_section_file h fuel (w t) p.
Proof. exact (fun h w fuel t p => proj1 (section_run h w fuel t p)). Qed.
Print Assumptions C73_section.
(** Whatever happens meanwhile: every table of contents and every section of the
    result was in its file at some moment of the run, under a path its table of
    contents stands for. *)
Theorem C73_seen : forall sanitise h w t depth fuel p nb,
  run_io w t (io_notebook sanitise h depth fuel p) = Ok nb ->
  notebook_seen sanitise h w t (t + length (asked w t (io_notebook sanitise h depth fuel p))) p (nb_entries nb) (nb_color nb).
Proof. exact run_seen. Qed.
Print Assumptions C73_seen.
(** A run of 26 questions through a section group, in a file system that stands still. *)
Example C73_example :
  is_ok (run_io (fun _ => sample_fs) 5 (io_notebook same order_id 3 50 toc_path_)) = true /\
  length (asked (fun _ => sample_fs) 5 (io_notebook same order_id 3 50 toc_path_)) = 26%nat.
Proof. computes. Qed.
(** Not at one moment: while a section is renamed, a notebook can be read with the
    section twice, or without it, although at every moment it is there once. *)
Theorem C73_one_moment_refuted :
  (exists nb, run_io (renaming name_a name_b 8) 0 (io_notebook same order_id 3 50 toc_path_) = Ok nb /\ length (nb_entries nb) = 2%nat) /\
  (exists nb, run_io (renaming name_b name_a 6) 0 (io_notebook same order_id 3 50 toc_path_) = Ok nb /\ length (nb_entries nb) = 0%nat) /\
  (forall n m k t depth fuel nb, (n = name_a /\ m = name_b \/ n = name_b /\ m = name_a) ->
     parse_notebook same order_id depth fuel (renaming n m k t) toc_path_ = Ok nb -> length (nb_entries nb) = 1%nat).
Proof.
  split; [eexists; split; [vm_compute; reflexivity|reflexivity]|]. split; [eexists; split; [vm_compute; reflexivity|reflexivity]|].
  assert (One : forall n depth fuel nb, n = name_a \/ n = name_b -> parse_notebook same order_id depth fuel (one_section n) toc_path_ = Ok nb ->
            length (nb_entries nb) = 1%nat).
  { intros n depth fuel nb Hn H.
    assert (E : exists nb', parse_notebook same order_id 3 50 (one_section n) toc_path_ = Ok nb' /\ length (nb_entries nb') = 1%nat).
    { destruct Hn as [->| ->]; (eexists; split; [vm_compute; reflexivity|reflexivity]). }
    destruct E as (nb' & E & L). rewrite (notebook_one same order_id (one_section n) toc_path_ depth 3 fuel 50) in H; congruence. }
  intros n m k t depth fuel nb Hn H. unfold renaming in H. destruct (Nat.ltb t k); eapply One; try exact H; intuition.
Qed.
Print Assumptions C73_one_moment_refuted.

(** ** C74 *)
(** Whatever happens meanwhile, only the given file and paths below its directory, by
    name, are looked at. *)
Theorem C74_inside : forall sanitise h w t depth fuel p base last q,
  ends_in p base last -> last <> RootDir -> In q (asked w t (io_notebook sanitise h depth fuel p)) ->
  q = QRead p \/
  exists ns, about_path q = base ++ map Normal ns /\
    Forall (fun n => (n <> [] /\ n <> [46] /\ n <> [46; 46] /\ ~ In 47 n /\ sanitise n = n) \/ toc_name n) ns.
Proof. exact inside. Qed.
Print Assumptions C74_inside.
(** So changes anywhere else do not matter, whenever they happen. *)
Theorem C74_elsewhere : forall sanitise h w w' t depth fuel p base last,
  ends_in p base last -> last <> RootDir ->
  (forall t, fs_read (w t) p = fs_read (w' t) p) ->
  (forall t ns q, about_path q = base ++ map Normal ns -> reply (w t) q = reply (w' t) q) ->
  run_io w' t (io_notebook sanitise h depth fuel p) = run_io w t (io_notebook sanitise h depth fuel p).
Proof. exact elsewhere. Qed.
Print Assumptions C74_elsewhere.
(** While contents change, but nothing is created, removed or linked anew, every file
    read is really inside the directory, links followed, unless it is the file given
    or a table of contents. *)
Theorem C74_links : forall sanitise h w t depth fuel p base last canon q cp,
  ends_in p base last -> last <> RootDir ->
  (forall t q, fs_canonicalize (w t) q = canon q) -> (forall t q, canon q <> None -> fs_exists (w t) q = true) ->
  In (QRead q) (asked w t (io_notebook sanitise h depth fuel p)) -> canon q = Some cp ->
  q = p \/ (exists dir n, ends_in q dir (Normal n) /\ toc_name n) \/ exists cb, canon base = Some cb /\ below_path cp cb.
Proof. exact links_fixed. Qed.
Print Assumptions C74_links.
(** The section file of the sample is read, and is inside. *)
Example C74_example :
  let w := fun t : nat => sample_fs in
  In (QRead (home ++ [Normal name_one])) (asked w 0 (io_notebook same order_id 3 50 toc_path_)) /\
  (forall t q, fs_canonicalize (w t) q = fs_canonicalize sample_fs q) /\
  (forall t q, fs_canonicalize sample_fs q <> None -> fs_exists (w t) q = true) /\
  fs_canonicalize sample_fs (home ++ [Normal name_one]) = Some (home ++ [Normal name_one]) /\
  ~ (exists dir n, ends_in (home ++ [Normal name_one]) dir (Normal n) /\ toc_name n).
Proof.
  cbn zeta. split; [vm_compute; repeat (first [left; reflexivity|right])|]. split; [reflexivity|]. split.
  - intros t q. unfold sample_fs, plain_fs. cbn [fs_canonicalize fs_exists]. destruct (_ || _); congruence.
  - split; [reflexivity|]. intros (dir & n & E & stem & _ & ->). apply (f_equal (@rev _)) in E. rewrite !rev_app_distr in E. cbn in E.
    injection E as E _. apply (f_equal (@rev _)) in E. rewrite rev_app_distr in E. discriminate E.
Qed.
(** The test for links is made before the file is opened: a file replaced in between
    by a link out of the directory is read, although at the moment it is opened the
    notebook would be refused. *)
Theorem C74_race_refuted : exists w i q cp nb,
  run_io w 0 (io_notebook same order_id 3 50 toc_path_) = Ok nb /\ length (nb_entries nb) = 1%nat /\
  nth_error (asked w 0 (io_notebook same order_id 3 50 toc_path_)) i = Some (QRead q) /\
  fs_canonicalize (w i) q = Some cp /\ fs_canonicalize (w i) home = Some home /\ ~ below_path cp home /\
  parse_notebook same order_id 3 50 (w i) toc_path_ = Err InvalidPath.
Proof.
  exists swapped, 6%nat, (home ++ [Normal name_a]), outside. eexists. split; [vm_compute; reflexivity|]. split; [reflexivity|].
  split; [vm_compute; reflexivity|]. split; [reflexivity|]. split; [reflexivity|]. split; [intros (r & K); discriminate K|vm_compute; reflexivity].
Qed.
Print Assumptions C74_race_refuted.

(** ** C75 *)
(** A crash needs a file that, at some moment, has one of the two defects of C50. *)
Theorem C75_crash : forall sanitise h w fuel depth t p,
  run_io w t (io_notebook sanitise h depth fuel p) = Panic ->
  exists t' q bs st c sp id, fs_read (w t') q = Some bs /\ open_store h fuel bs = Ok st /\ object_space st c = Some sp /\
    (short_list_format sp id \/ ink_shortage sp id).
Proof. exact timed_crash. Qed.
Print Assumptions C75_crash.
(** If one bound on the nesting of directories holds all the time, reading ends. *)
Theorem C75_ends : forall sanitise h w fuel t depth p base last n,
  ends_in p base last -> last <> RootDir ->
  (forall t, readable h fuel (w t)) -> (forall t, shallow (w t) base n) -> (n < depth)%nat ->
  run_io w t (io_notebook sanitise h depth fuel p) <> OutOfFuel.
Proof. exact timed_ends. Qed.
Print Assumptions C75_ends.
(** A crash in a changing file system: the section is replaced by a defective one. *)
Example C75_example :
  let before := plain_fs [(toc_path_, sample_toc); (home ++ [Normal name_one], sample_section)] [(home, [])] in
  let after := plain_fs [(toc_path_, sample_toc); (home ++ [Normal name_one], short_list_file)] [(home, [])] in
  let w := fun t => if Nat.ltb t 8 then before else after in
  is_ok (parse_notebook same order_id 3 50 before toc_path_) = true /\
  run_io w 0 (io_notebook same order_id 3 50 toc_path_) = Panic /\
  forall t, shallow (w t) home 1.
Proof.
  cbn zeta. split; [vm_compute; reflexivity|]. split; [vm_compute; reflexivity|]. intros t ns H.
  assert (E : In (home ++ map Normal ns) [toc_path_; home ++ [Normal name_one]; home]).
  { destruct (Nat.ltb t 8); now apply plain_exists in H. }
  clear H. destruct E as [E|[E|[E|[]]]]; injection E as E; destruct ns as [|? [|]]; cbn in *; try lia; discriminate E.
Qed.
(** If only each moment has a bound, it need not end: here every moment shows a finite
    tree without links, whose reading ends. *)
Theorem C75_ends_refuted : exists w p,
  (forall t, readable order_id 50 (w t)) /\ (forall t, exists cwd, without_links (w t) [] cwd) /\
  (forall t, exists depth, parse_notebook same order_id depth 50 (w t) p <> OutOfFuel) /\
  forall depth, run_io w 0 (io_notebook same order_id depth 50 p) = OutOfFuel.
Proof.
  exists digging, toc_path_. split; [exact digging_readable|]. split; [intros t; eexists; apply digging_tree|]. split.
  - intros t. destruct (tree_shallow (digging t) [] (chain_root (S t)) home (digging_tree t)) as (n & Hn). exists (S n).
    apply (C27_terminates same order_id 50 (digging t) home (Normal name_toc) n (S n) (digging_readable t) Hn); [discriminate|lia].
  - intros depth. apply (dig depth 0 0). lia.
Qed.
Print Assumptions C75_ends_refuted.
