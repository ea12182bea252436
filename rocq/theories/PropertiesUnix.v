(** Property theorems for paths as texts (C93). *)
From Coq Require Import Lia.
From Verif Require Import Base Codec Package PropSet Store Props Nodes Doc Notebook SpecNotebook ExampleNotebook PropertiesNotebook PropertiesApi PropertiesStore Unix SpecUnix UnixProofs.

(** ** C93 *)
(** On texts, with the functions of [std::path] that work on texts from the end, notebooks
    and sections are read as on components. *)
Theorem C93_notebook : forall sanitise h depth fuel T F t, takes_apart T F -> plain t ->
  t_parse_notebook sanitise h depth fuel T t = parse_notebook sanitise h depth fuel F (components t).
Proof. exact (fun s h d fuel T F t A P => notebook_ok s h fuel T F A d t P). Qed.
Print Assumptions C93_notebook.
Theorem C93_section : forall h fuel T F t, takes_apart T F -> plain t ->
  t_parse_section_file h fuel T t = parse_section_file h fuel F (components t).
Proof. exact section_ok. Qed.
Print Assumptions C93_section.
(** So the way a path is spelled does not matter: doubled separators, ["."] between
    two of them. *)
Theorem C93_spelling : forall sanitise h depth fuel T F t t', takes_apart T F -> plain t -> plain t' -> components t = components t' ->
  t_parse_notebook sanitise h depth fuel T t = t_parse_notebook sanitise h depth fuel T t' /\
  t_parse_section_file h fuel T t = t_parse_section_file h fuel T t'.
Proof. exact (fun s h d fuel T F t t' A P P' C => conj (notebook_same s h fuel T F d t t' A P P' C) (section_same h fuel T F t t' A P P' C)). Qed.
Print Assumptions C93_spelling.
(** The text of the directory is the beginning of the text of the table of contents. *)
Theorem C93_directory : forall t b, t_parent t = Some b -> (exists s, t = b ++ s) /\ plain b.
Proof. exact (fun t b H => conj (parent_front t b H) (proj2 (parent_ok t) b H)). Qed.
Print Assumptions C93_directory.
(** Whatever the operating system answers: a text made from an entry is the text of the
    directory, a separator, and proper names that the sanitiser leaves alone. These are
    the names of the entry. What exists there has a canonical path below that of
    the directory. *)
Theorem C93_entry : forall sanitise T base entry t, t_resolve sanitise T base entry = Ok t ->
  exists names, names <> [] /\ Forall proper_name names /\ Forall (fun n => sanitise n = n) names /\ below base names t /\
    map Normal names = filter (fun c => negb (component_eqb c CurDir)) (components entry) /\
    (tfs_exists T t = true -> exists b c, tfs_canonicalize T base = Some b /\ tfs_canonicalize T t = Some c /\
       starts_with (components c) (components b) = true).
Proof. exact resolve_names. Qed.
Print Assumptions C93_entry.

(** The sample notebook at the texts "/n/t.onetoc2" and "//n/.//t.onetoc2". *)
Definition text_fs : tfilesystem :=
  TFs (fun t => fs_exists sample_fs (components t)) (fun t => fs_is_file sample_fs (components t))
    (fun t => if fs_exists sample_fs (components t) then Some t else None)
    (fun t => fs_read sample_fs (components t)) (fun t => fs_read_dir sample_fs (components t)).
Definition toc_text : text := slash :: 110 :: slash :: name_toc.
Definition toc_text' : text := [slash; slash; 110; slash; dot; slash; slash] ++ name_toc.
Lemma proper_dec n : existsb (N.eqb slash) n || name_eqb n [] || name_eqb n [dot] || name_eqb n [dot; dot] = false -> proper_name n.
Proof.
  rewrite !orb_false_iff. intros (((A & B) & C) & D). repeat split.
  - intro I. assert (existsb (N.eqb slash) n = true) by (apply existsb_exists; exists slash; split; [exact I|apply N.eqb_refl]). congruence.
  - intros ->. discriminate B.
  - intros ->. discriminate C.
  - intros ->. discriminate D.
Qed.
Example C93_system : takes_apart text_fs sample_fs.
Proof.
  constructor; cbn [tfs_exists tfs_is_file tfs_canonicalize tfs_read tfs_read_dir text_fs]; try reflexivity.
  - intros t _. unfold sample_fs, plain_fs. cbn [fs_exists fs_canonicalize]. now destruct (_ || _).
  - intros t l n. unfold sample_fs, plain_fs, sample_dirs. cbn [fs_read_dir find fst]. intros H I.
    assert (P : Forall proper_name [name_toc; name_one; name_a; recycle_bin]) by (repeat constructor; apply proper_dec; vm_compute; reflexivity).
    rewrite Forall_forall in P. apply P. revert H I.
    repeat match goal with |- context [path_eqb ?x ?y] => destruct (path_eqb x y) end; cbn [option_map snd map]; intro H; try discriminate H; injection H as <-; cbn [In]; intuition congruence.
Qed.
Example C93_plain : plain toc_text /\ plain toc_text' /\ toc_text <> toc_text' /\ components toc_text = components toc_text' /\
  t_parent toc_text' = Some [slash; slash; 110] /\ is_ok (t_parse_notebook same order_id 3 50 text_fs toc_text') = true.
Proof.
  split; [apply (tail_plain [slash; 110; slash] name_toc); vm_compute; intuition discriminate|]. split; [apply (tail_plain [slash; slash; 110; slash; dot; slash; slash] name_toc); vm_compute; intuition discriminate|].
  split; [discriminate|]. computes.
Qed.
(** The entry "./a//a.one" of the directory "//n" *)
Example C93_entry_example :
  t_resolve same text_fs [slash; slash; 110] ([dot; slash] ++ name_a ++ [slash; slash] ++ name_one) =
    Ok ([slash; slash; 110; slash] ++ name_a ++ [slash] ++ name_one).
Proof. vm_compute. reflexivity. Qed.
