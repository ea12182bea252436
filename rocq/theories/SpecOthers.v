(** Notebooks in two file systems that differ in the contents of some files. *)
From Verif Require Import Base Codec Store Doc Notebook SpecNotebook SpecStore SpecDoc.

(** The same files and directories; only the files in [Q] may have other contents. *)
Definition same_but (Q : path -> Prop) (fs fs' : filesystem) : Prop :=
  (forall p, fs_exists fs p = fs_exists fs' p /\ fs_is_file fs p = fs_is_file fs' p /\
             fs_canonicalize fs p = fs_canonicalize fs' p /\ fs_read_dir fs p = fs_read_dir fs' p) /\
  (forall p, ~ Q p -> fs_read fs p = fs_read fs' p).
Definition among (qs : list path) (p : path) : Prop := In p qs.
(** No table of contents is among the files in [Q]. *)
Definition no_tocs (Q : path -> Prop) : Prop := forall dir n, toc_name n -> ~ Q (dir ++ [Normal n]).
(** The entries are the same, but for sections read from files in [Q]. *)
Inductive differs (h : order) (Q : path -> Prop) (fs fs' : filesystem) : section_entry -> section_entry -> Prop :=
| df_same e : differs h Q fs fs' e e
| df_section q s s' : Q q -> section_at h fs q s -> section_at h fs' q s' -> differs h Q fs fs' (EnSection s) (EnSection s')
| df_group n es es' : Forall2 (differs h Q fs fs') es es' -> differs h Q fs fs' (EnGroup n es) (EnGroup n es').
