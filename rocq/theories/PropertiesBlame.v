(** Property theorems: one answer (C67), the causes of errors (C68) and the command
    line program (C69). *)
From Coq Require Import Lia.
From Verif Require Import Base Codec Package PropSet PropIds Store Shapes Props Nodes Doc SpecCodec SpecStore SpecNodes SpecDoc
  BaseProofs NodesProofs DocProofs DocProofs4 ExampleFile PropertiesStore ExampleSection PropertiesDoc
  SpecNotebook Notebook NotebookProofs NotebookProofs2 NotebookProofs3 ExampleNotebook PropertiesNotebook
  SpecKinds KindsProofs SpecBlame OnceProofs BlameProofs SpecCli Cli CliProofs.

(** ** C67 *)
(** A call that ends ends in one way only: whatever bounds are put on the number of
    steps, if they suffice the answer is the same. *)
Theorem C67_section : forall h data file fuel fuel',
  parse_section_buffer h fuel data file <> OutOfFuel -> parse_section_buffer h fuel' data file <> OutOfFuel ->
  parse_section_buffer h fuel data file = parse_section_buffer h fuel' data file.
Proof.
  exact (fun h data file f f' => refines_agree (fun f => parse_section_buffer h f data file) f f'
           (fun a b L => buffer_fuel h a b data file L)).
Qed.
Print Assumptions C67_section.
Theorem C67_section_file : forall h fs p fuel fuel',
  parse_section_file h fuel fs p <> OutOfFuel -> parse_section_file h fuel' fs p <> OutOfFuel ->
  parse_section_file h fuel fs p = parse_section_file h fuel' fs p.
Proof.
  exact (fun h fs p f f' => refines_agree (fun f => parse_section_file h f fs p) f f'
           (fun a b L => section_file_more h a b fs p L)).
Qed.
Print Assumptions C67_section_file.
Theorem C67_notebook : forall sanitise h fs p depth depth' fuel fuel',
  parse_notebook sanitise h depth fuel fs p <> OutOfFuel -> parse_notebook sanitise h depth' fuel' fs p <> OutOfFuel ->
  parse_notebook sanitise h depth fuel fs p = parse_notebook sanitise h depth' fuel' fs p.
Proof. exact notebook_one. Qed.
Print Assumptions C67_notebook.
(** Bounds that suffice go on to suffice. *)
Theorem C67_more : forall sanitise h fs p depth depth' fuel fuel',
  (depth <= depth')%nat -> (fuel <= fuel')%nat -> parse_notebook sanitise h depth fuel fs p <> OutOfFuel ->
  parse_notebook sanitise h depth' fuel' fs p = parse_notebook sanitise h depth fuel fs p.
Proof. exact (fun s h fs p d d' f f' Ld Lf N => notebook_fuel s h f f' fs Lf d d' p Ld N). Qed.
Print Assumptions C67_more.
(** A section, an error and a crash, each with two bounds; and the sample notebook. *)
Example C67_example :
  parse_section_buffer order_id 5 sample_section [97] <> OutOfFuel /\
  parse_section_buffer order_id 50 sample_section [97] <> OutOfFuel /\
  parse_section_buffer order_id 1 sample_toc [97] = Err NotASectionFile /\
  parse_section_buffer order_id 0 sample_section [97] = OutOfFuel /\
  parse_notebook same order_id 2 4 sample_fs (home ++ [Normal name_toc]) <> OutOfFuel /\
  parse_notebook same order_id 1 4 sample_fs (home ++ [Normal name_toc]) = OutOfFuel.
Proof.
  split; [vm_compute; discriminate|]. split; [vm_compute; discriminate|]. split; [vm_compute; reflexivity|].
  split; [vm_compute; reflexivity|]. split; [vm_compute; discriminate|]. vm_compute; reflexivity.
Qed.

(** ** C68 *)
(** Every error has a cause in the directory: a table of contents of the notebook, and
    what is wrong with it or with what it lists, as described in SpecBlame.v. *)
Theorem C68_cause : forall sanitise h depth fuel fs p e,
  parse_notebook sanitise h depth fuel fs p = Err e ->
  exists q, reaches sanitise h fs p q /\ trouble sanitise h fs q e.
Proof. exact (fun s h d f fs p e => notebook_blame s h fs f d p e). Qed.
Print Assumptions C68_cause.
(** Anything that is wrong, at any depth, prevents a result: a notebook is read as a
    whole or not at all. *)
Theorem C68_whole_or_nothing : forall sanitise h fs p q e,
  reaches sanitise h fs p q -> trouble sanitise h fs q e ->
  forall depth fuel nb, parse_notebook sanitise h depth fuel fs p <> Ok nb.
Proof. exact notebook_prevented. Qed.
Print Assumptions C68_whole_or_nothing.
Theorem C68_section_cause : forall h fuel fs p e,
  parse_section_file h fuel fs p = Err e -> section_trouble h fs p e.
Proof. exact (fun h f fs p e => section_file_blame h fs f p e). Qed.
Print Assumptions C68_section_cause.
Theorem C68_section_prevented : forall h fs p e, section_trouble h fs p e ->
  forall fuel s, parse_section_file h fuel fs p <> Ok s.
Proof. exact section_prevented. Qed.
Print Assumptions C68_section_prevented.

(** What the kinds that name a file or directory mean. *)
Theorem C68_toc_missing : forall sanitise h depth fuel fs p,
  parse_notebook sanitise h depth fuel fs p = Err TocFileMissing ->
  exists q dir files, reaches sanitise h fs p q /\ lists sanitise h fs q dir /\ fs_is_file fs dir = false /\
    fs_read_dir fs dir = Some (map Some files) /\ Forall (fun n => ~ toc_name n) files.
Proof. exact (fun s h d f fs p => toc_missing_means s h fs f d p). Qed.
Print Assumptions C68_toc_missing.
Theorem C68_not_a_section : forall sanitise h depth fuel fs p,
  parse_notebook sanitise h depth fuel fs p = Err NotASectionFile ->
  exists q file st, reaches sanitise h fs p q /\ lists sanitise h fs q file /\ fs_is_file fs file = true /\
    holds_store h fs file st /\ st_schema st <> 0x1F937CB4B26F445FB9F817E20160E461.
Proof. exact (fun s h d f fs p => not_section_means s h fs f d p). Qed.
Print Assumptions C68_not_a_section.
Theorem C68_not_a_toc : forall sanitise h depth fuel fs p,
  parse_notebook sanitise h depth fuel fs p = Err NotATocFile ->
  exists q st, reaches sanitise h fs p q /\ holds_store h fs q st /\
    st_schema st <> 0xE4DBFD38E5C7408BA8A10E7B421E1F5F.
Proof. exact (fun s h d f fs p => not_toc_means s h fs f d p). Qed.
Print Assumptions C68_not_a_toc.

(** The sample with the table of contents of its group replaced, removed or made
    unreadable, with the section replaced, and with a bad name. *)
Definition broken (files : list (path * list N)) (dirs : list (path * list name)) : res notebook :=
  parse_notebook same order_id 3 50 (plain_fs files dirs) (home ++ [Normal name_toc]).
Definition swap_file (q : path) (bs : list N) : list (path * list N) :=
  map (fun f => if path_eqb q (fst f) then (q, bs) else f) sample_files.
Definition swap_dir (q : path) (l : list name) : list (path * list name) :=
  map (fun d => if path_eqb q (fst d) then (q, l) else d) sample_dirs.
Definition drop_file (q : path) : list (path * list N) :=
  filter (fun f => negb (path_eqb q (fst f))) sample_files.
Example C68_example :
  let group := home ++ [Normal name_a] in
  broken sample_files (swap_dir group [name_one]) = Err TocFileMissing /\
  broken (swap_file (group ++ [Normal name_toc]) sample_section) sample_dirs = Err NotATocFile /\
  broken (drop_file (group ++ [Normal name_toc])) sample_dirs = Err IO /\
  broken (swap_file (home ++ [Normal name_one]) empty_toc) sample_dirs = Err NotASectionFile /\
  broken (swap_file (home ++ [Normal name_one]) [1; 2]) sample_dirs = Err UnexpectedEof /\
  broken (swap_file (home ++ [Normal name_toc]) (toc_file [toc_entry_obj 101 1 [46; 46]])) sample_dirs = Err InvalidPath /\
  broken (swap_file (home ++ [Normal name_toc]) (toc_file [])) sample_dirs = Err MalformedOneNoteData.
Proof. cbv zeta. computes. Qed.

(** ** C69 *)
(** Given the name of a table of contents, the program prints the notebook the library
    returns; given any other name, the section. *)
Theorem C69_notebook : forall sanitise h depth fuel fs prog arg rest nb, names_toc arg ->
  cli_main sanitise h depth fuel fs (prog :: arg :: rest) = Ok (PrNotebook nb) <->
  parse_notebook sanitise h depth fuel fs (components arg) = Ok nb.
Proof. exact cli_notebook. Qed.
Print Assumptions C69_notebook.
Theorem C69_section : forall sanitise h depth fuel fs prog arg rest s, ~ names_toc arg ->
  cli_main sanitise h depth fuel fs (prog :: arg :: rest) = Ok (PrSection s) <->
  parse_section_file h fuel fs (components arg) = Ok s.
Proof. exact cli_section. Qed.
Print Assumptions C69_section.
(** Nothing else is ever printed. *)
Theorem C69_nothing_else : forall sanitise h depth fuel fs args out,
  cli_main sanitise h depth fuel fs args = Ok out -> exists prog arg rest, args = prog :: arg :: rest /\
    match out with PrNotebook _ => names_toc arg | PrSection _ => ~ names_toc arg end.
Proof. exact cli_either. Qed.
Print Assumptions C69_nothing_else.
(** The program panics exactly if it is given no argument or the library does not
    return a result. *)
Theorem C69_panics : forall sanitise h depth fuel fs args,
  cli_main sanitise h depth fuel fs args = Panic <->
  (length args < 2)%nat \/ exists prog arg rest, args = prog :: arg :: rest /\
    ((names_toc arg /\ failed (parse_notebook sanitise h depth fuel fs (components arg))) \/
     (~ names_toc arg /\ failed (parse_section_file h fuel fs (components arg)))).
Proof. exact cli_crash. Qed.
Print Assumptions C69_panics.
(** "/n/t.onetoc2", "/n/a.one", "/n/.onetoc2" and "/n/t.ONETOC2". *)
Definition arg_of (n : name) : list N := [47; 110; 47] ++ n.
Definition name_dot_toc : name := [46; 111; 110; 101; 116; 111; 99; 50].
Definition name_upper : name := [116; 46; 79; 78; 69; 84; 79; 67; 50].
Example C69_example :
  names_toc (arg_of name_toc) /\ ~ names_toc (arg_of name_one) /\
  ~ names_toc (arg_of name_dot_toc) /\ ~ names_toc (arg_of name_upper) /\
  (exists nb, cli_main same order_id 3 50 sample_fs [[112]; arg_of name_toc] = Ok (PrNotebook nb) /\ length (nb_entries nb) = 3%nat) /\
  (exists s, cli_main same order_id 3 50 sample_fs [[112]; arg_of name_one; [120]] = Ok (PrSection s) /\ se_display_name s = name_a) /\
  cli_main same order_id 3 50 sample_fs [[112]; arg_of name_upper] = Panic.
Proof.
  split; [apply names_toc_iff; vm_compute; reflexivity|].
  do 3 (split; [rewrite <- names_toc_iff; vm_compute; discriminate|]).
  split; [eexists; split; [vm_compute; reflexivity|reflexivity]|].
  split; [eexists; split; [vm_compute; reflexivity|reflexivity]|]. vm_compute; reflexivity.
Qed.
