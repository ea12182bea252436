(** C77: changing a section file changes the sections read from it, and nothing else in
    the notebook. *)
From Coq Require Import Lia.
From Verif Require Import Base Codec Store Doc SpecStore SpecDoc ExampleFile ExampleSection Notebook SpecNotebook ExampleNotebook
  PropertiesStore PropertiesDoc PropertiesNotebook Timed ExampleTimed SpecOthers OthersProofs.

(** [qs] are the changed files. Names, order, section groups and colour are the same,
    and so are all other sections. *)
Theorem C77_only : forall sanitise h qs fs fs' p depth depth' fuel fuel' nb nb',
  same_but (among qs) fs fs' -> no_tocs (among qs) -> ~ In p qs ->
  parse_notebook sanitise h depth fuel fs p = Ok nb -> parse_notebook sanitise h depth' fuel' fs' p = Ok nb' ->
  nb_color nb' = nb_color nb /\ Forall2 (differs h (among qs) fs fs') (nb_entries nb) (nb_entries nb').
Proof. exact only. Qed.
Print Assumptions C77_only.
(** If every changed section is still a section, the notebook can be read. *)
Theorem C77_readable : forall sanitise h qs fs fs' p depth fuel nb,
  same_but (among qs) fs fs' -> no_tocs (among qs) -> ~ In p qs ->
  parse_notebook sanitise h depth fuel fs p = Ok nb ->
  (forall q s, In q qs -> section_at h fs q s -> exists s', section_at h fs' q s') ->
  exists depth' fuel' nb', parse_notebook sanitise h depth' fuel' fs' p = Ok nb'.
Proof. exact stays_readable. Qed.
Print Assumptions C77_readable.
(** But reading is all or nothing: if a notebook can be read although the changed files
    are no sections, they are not part of it. *)
Theorem C77_all_or_nothing : forall sanitise h qs fs fs' p depth depth' fuel fuel' nb nb',
  same_but (among qs) fs fs' -> no_tocs (among qs) -> ~ In p qs ->
  (forall q s, In q qs -> ~ section_at h fs' q s) ->
  parse_notebook sanitise h depth fuel fs p = Ok nb -> parse_notebook sanitise h depth' fuel' fs' p = Ok nb' -> nb = nb'.
Proof. exact all_or_nothing. Qed.
Print Assumptions C77_all_or_nothing.

(** The sample notebook with other bytes in the file "a.one". *)
Definition other_fs (bs : list N) : filesystem :=
  plain_fs [ (home ++ [Normal name_toc], sample_toc); (home ++ [Normal name_one], bs);
             (home ++ [Normal name_a; Normal name_toc], empty_toc) ] sample_dirs.
Definition other_section : list N := section_file (Some [78; 46; 111; 110; 101]) [page_meta_object; manifest_object; page_obj [] []] [] [].
Lemma other_but bs : same_but (among [home ++ [Normal name_one]]) sample_fs (other_fs bs).
Proof.
  unfold sample_fs, other_fs, sample_files, plain_fs. split.
  - intros p. cbn [fs_exists fs_is_file fs_canonicalize fs_read_dir find fst].
    destruct (path_eqb p (home ++ [Normal name_toc])), (path_eqb p (home ++ [Normal name_one])), (path_eqb p (home ++ [Normal name_a; Normal name_toc]));
      repeat split; reflexivity.
  - intros p N. cbn [fs_read find fst]. destruct (path_eqb p (home ++ [Normal name_toc])); [reflexivity|].
    destruct (path_eqb p (home ++ [Normal name_one])) eqn:E; [|reflexivity]. apply path_eqb_eq in E as ->. destruct N. now left.
Qed.
Lemma one_no_toc : no_tocs (among [home ++ [Normal name_one]]).
Proof.
  intros dir n (stem & _ & ->) [E|[]]. apply (f_equal (@rev _)) in E. rewrite !rev_app_distr in E. cbn in E.
  injection E as E _. apply (f_equal (@rev _)) in E. rewrite rev_app_distr in E. discriminate E.
Qed.
(** Two readable sections, and one file that is no section. *)
Example C77_example :
  same_but (among [home ++ [Normal name_one]]) sample_fs (other_fs other_section) /\ no_tocs (among [home ++ [Normal name_one]]) /\
  ~ In toc_path_ [home ++ [Normal name_one]] /\
  is_ok (parse_notebook same order_id 3 50 sample_fs toc_path_) = true /\
  is_ok (parse_notebook same order_id 3 50 (other_fs other_section) toc_path_) = true /\
  parse_notebook same order_id 3 50 sample_fs toc_path_ <> parse_notebook same order_id 3 50 (other_fs other_section) toc_path_ /\
  parse_notebook same order_id 3 50 (other_fs [1; 2; 3]) toc_path_ = Err UnexpectedEof.
Proof.
  split; [apply other_but|]. split; [exact one_no_toc|]. split; [intros [E|[]]; discriminate E|].
  split; [vm_compute; reflexivity|]. split; [vm_compute; reflexivity|]. split; [vm_compute; discriminate|vm_compute; reflexivity].
Qed.
