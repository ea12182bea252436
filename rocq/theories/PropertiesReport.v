(** Property theorems: what errors say (C78). *)
From Coq Require Import Lia.
From Verif Require Import Base Codec Package PropSet PropIds Store Shapes Props Nodes Doc SpecCodec SpecStore SpecNodes SpecDoc
  BaseProofs NodesProofs DocProofs DocProofs4 ExampleFile PropertiesStore ExampleSection PropertiesDoc
  SpecNotebook Notebook NotebookProofs NotebookProofs2 NotebookProofs3 ExampleNotebook PropertiesNotebook
  SpecKinds KindsProofs SpecBlame OnceProofs BlameProofs PropertiesBlame Report SpecReport ReportProofs.

(** ** C78 *)
(** Report.v is Notebook.v with the contents of errors: without them the results are the
    same. *)
Theorem C78_same_notebook : forall sanitise h depth fuel fs p,
  without_words (say_notebook sanitise h depth fuel fs p) = parse_notebook sanitise h depth fuel fs p.
Proof. exact (fun s h d f fs p => words_notebook s h f fs d p). Qed.
Print Assumptions C78_same_notebook.
Theorem C78_same_section : forall h fuel fs p,
  without_words (say_section h fuel fs p) = parse_section_file h fuel fs p.
Proof. exact words_section. Qed.
Print Assumptions C78_same_section.
Theorem C78_same_buffer : forall h fuel data file,
  without_words (say_section_buffer h fuel data file) = parse_section_buffer h fuel data file.
Proof. exact words_buffer. Qed.
Print Assumptions C78_same_buffer.

(** What an error says is so, and it says it about the first thing that cannot be read:
    everything listed before it, at every level above it, can be. *)
Theorem C78_first_cause : forall sanitise h depth fuel fs p r,
  say_notebook sanitise h depth fuel fs p = Said r ->
  exists q, first_reached sanitise h fs p q /\ says sanitise h fs q r.
Proof. exact (fun s h d f fs p r => notebook_said s h fs f d p r). Qed.
Print Assumptions C78_first_cause.
(** If the first thing that cannot be read is a file or a directory that is not what it
    should be, it is the one that is named. *)
Theorem C78_named : forall sanitise h fs p r, names_one r ->
  (exists depth fuel, say_notebook sanitise h depth fuel fs p = Said r) <->
  exists q, first_reached sanitise h fs p q /\ says sanitise h fs q r.
Proof. exact (fun s h fs p r => said_iff s h fs p r). Qed.
Print Assumptions C78_named.

(** The file or directory named is the one that is wrong. *)
Theorem C78_not_a_toc : forall sanitise h depth fuel fs p file,
  say_notebook sanitise h depth fuel fs p = Said (SaysNotAToc file) ->
  first_reached sanitise h fs p file /\
  exists st, holds_store h fs file st /\ st_schema st <> 0xE4DBFD38E5C7408BA8A10E7B421E1F5F.
Proof. exact (fun s h d f fs p file => said_not_toc s h fs d f p file). Qed.
Print Assumptions C78_not_a_toc.
Theorem C78_not_a_section : forall sanitise h depth fuel fs p file,
  say_notebook sanitise h depth fuel fs p = Said (SaysNotASection file) ->
  exists q, first_reached sanitise h fs p q /\ comes_first sanitise h fs q file /\ fs_is_file fs file = true /\
    exists st, holds_store h fs file st /\ st_schema st <> 0x1F937CB4B26F445FB9F817E20160E461.
Proof.
  exact (fun s h d f fs p file H => match notebook_said s h fs f d p _ H with
         | ex_intro _ q (conj R W) => ex_intro _ q (conj R (says_not_section s h fs q file W)) end).
Qed.
Print Assumptions C78_not_a_section.
Theorem C78_toc_missing : forall sanitise h depth fuel fs p dir,
  say_notebook sanitise h depth fuel fs p = Said (SaysTocMissing dir) ->
  exists q, first_reached sanitise h fs p q /\ comes_first sanitise h fs q dir /\ fs_is_file fs dir = false /\
    exists files, fs_read_dir fs dir = Some (map Some files) /\ Forall (fun m => ~ toc_name m) files.
Proof.
  exact (fun s h d f fs p dir H => match notebook_said s h fs f d p _ H with
         | ex_intro _ q (conj R W) => ex_intro _ q (conj R (says_toc_missing s h fs q dir W)) end).
Qed.
Print Assumptions C78_toc_missing.
(** A section file on its own. *)
Theorem C78_section : forall h fuel fs p r, say_section h fuel fs p = Said r -> section_says h fs p r.
Proof. exact (fun h f fs p r => section_said h fs f p r). Qed.
Print Assumptions C78_section.
(** A buffer: the error names it as the caller did. *)
Theorem C78_buffer : forall h fuel data file r, say_section_buffer h fuel data file = Said r -> buffer_says h data file r.
Proof. exact buffer_said. Qed.
Print Assumptions C78_buffer.
(** A listed name that is refused: the message says what is wrong with it. *)
Theorem C78_name : forall sanitise fs base e r, say_resolve sanitise fs base e = Said r ->
  exists m, r = SaysInvalid m /\ bad_name sanitise fs base e m.
Proof. exact (fun s fs base e r => resolve_said s fs base e r). Qed.
Print Assumptions C78_name.

(** The sample with things replaced, as in C68; with two things wrong, the first is named. *)
Definition reported (files : list (path * list N)) (dirs : list (path * list name)) : rep notebook :=
  say_notebook same order_id 3 50 (plain_fs files dirs) (home ++ [Normal name_toc]).
Example C78_example :
  let group := home ++ [Normal name_a] in
  reported sample_files (swap_dir group [name_one]) = Said (SaysTocMissing group) /\
  reported (swap_file (group ++ [Normal name_toc]) sample_section) sample_dirs = Said (SaysNotAToc (group ++ [Normal name_toc])) /\
  reported (drop_file (group ++ [Normal name_toc])) sample_dirs = Said (SaysOther IO) /\
  reported (swap_file (home ++ [Normal name_one]) empty_toc) sample_dirs = Said (SaysNotASection (home ++ [Normal name_one])) /\
  reported (swap_file (home ++ [Normal name_one]) empty_toc) (swap_dir group [name_one]) = Said (SaysTocMissing group) /\
  reported (swap_file (home ++ [Normal name_toc]) (toc_file [toc_entry_obj 101 1 [46; 46]])) sample_dirs = Said (SaysInvalid BadComponent) /\
  say_resolve (filter (fun c => negb (c =? 58))) (plain_fs sample_files sample_dirs) home [97; 58; 98] =
    Said (SaysInvalid (BadCharacters [97; 58; 98])) /\
  say_section_buffer order_id 50 empty_toc [97] = Said (SaysNotASection [Normal [97]]).
Proof. cbv zeta. computes. Qed.
