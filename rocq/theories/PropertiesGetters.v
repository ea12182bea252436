(** C99: what the accessors report. *)
From Verif Require Import Base Codec Package PropSet Store Shapes Props Nodes Doc Notebook Getters SpecStore SpecNodes SpecDoc SpecGetters
  GettersProofs2 PropertiesStore PropertiesDoc ExampleFile ExampleSection ExampleNotebook PropertiesNotebook.

(** Whatever a caller gets to by accessors from a section: all its attributes are those
    stored in an object of the right kind in the file. *)
Theorem C99_section : forall h fuel bs file s, parse_section_buffer h fuel bs file = Ok s ->
  exists st, open_store h fuel bs = Ok st /\ forall x, seen s x -> documented st file x.
Proof. exact buffer_seen. Qed.
Print Assumptions C99_section.
(** The same for the sections of a notebook, each with the file it comes from. *)
Theorem C99_notebook : forall sanitise h depth fuel fs p nb s,
  parse_notebook sanitise h depth fuel fs p = Ok nb -> listed (Notebook_entries nb) s ->
  exists q bs n st, fs_read fs q = Some bs /\ file_name q = Some n /\ open_store h fuel bs = Ok st /\
    forall x, seen s x -> documented st n x.
Proof. exact (fun sanitise h depth fuel fs => notebook_seen sanitise h fuel fs depth). Qed.
Print Assumptions C99_notebook.

(** The colour of a notebook is the one stored at the root of its table of contents. *)
Theorem C99_notebook_color : forall sanitise h depth fuel fs p nb, parse_notebook sanitise h depth fuel fs p = Ok nb ->
  exists bs st id o, fs_read fs p = Some bs /\ open_store h fuel bs = Ok st /\
    content_root (st_data_root st) = Some id /\ get_object (st_data_root st) id = Some o /\
    ob_jcid o = 0x00020001 /\ optional o 0x14001CBE a_color (Notebook_color nb).
Proof. exact (fun sanitise h depth fuel fs => notebook_color_stored sanitise h fuel fs depth). Qed.
Print Assumptions C99_notebook_color.
(** A section group has the name of a directory, and its entries are those of a notebook
    that one of the files in there describes. *)
Theorem C99_groups : forall sanitise h depth fuel fs p nb g, parse_notebook sanitise h depth fuel fs p = Ok nb ->
  grouped (Notebook_entries nb) g ->
  exists dir files toc depth' nb', fs_exists fs dir = true /\ fs_is_file fs dir = false /\
    file_name dir = Some (SectionGroup_display_name g) /\ fs_read_dir fs dir = Some files /\ In (Some toc) files /\
    parse_notebook sanitise h depth' fuel fs (dir ++ [Normal toc]) = Ok nb' /\
    SectionGroup_entries g = Notebook_entries nb'.
Proof. exact (fun sanitise h depth fuel fs => notebook_groups sanitise h fuel fs depth). Qed.
Print Assumptions C99_groups.

(** In the sample a caller gets to the bold format of a paragraph, to an image with its
    bytes, and to the points of a stroke; in the sample notebook there is a section. *)
Definition s_rich : section := Eval vm_compute in
  match parse_section 50 st_rich [102] with Ok s => s | _ => Section_ [] [] None end.
Example C99_example : parse_section_buffer order_id 50 rich_file [102] = Ok s_rich /\
  (exists y, seen s_rich (AStyle y) /\ ParagraphStyling_bold y = true) /\
  (exists g, seen s_rich (AImage g) /\ Image_data g = Some [1; 2; 3]) /\
  (exists s c, parse_notebook same order_id 3 50 sample_fs (home ++ [Normal name_toc]) =
     Ok (Notebook_ [EnGroup name_a []; EnSection s; EnSection s] c) /\
     listed (Notebook_entries (Notebook_ [EnGroup name_a []; EnSection s; EnSection s] c)) s /\
     grouped (Notebook_entries (Notebook_ [EnGroup name_a []; EnSection s; EnSection s] c)) (name_a, []) /\
     c = Some (Color 255 1 2 3)).
Proof.
  split; [vm_compute; reflexivity|].
  pose proof (seen_start s_rich) as H.
  eapply seen_step in H; [|eapply g_series; left; reflexivity].
  eapply seen_step in H; [|eapply g_pages; left; reflexivity]. pose proof H as G.
  eapply seen_step in H; [|eapply g_page; left; reflexivity].
  eapply seen_step in H; [|eapply g_outline; reflexivity].
  eapply seen_step in H; [|eapply g_items; left; reflexivity].
  eapply seen_step in H; [|eapply g_element; reflexivity].
  eapply seen_step in H; [|eapply g_contents; left; reflexivity].
  eapply seen_step in H; [|eapply g_text; reflexivity].
  eapply seen_step in H; [|eapply g_formats; left; reflexivity].
  split; [eexists; split; [exact H|reflexivity]|].
  eapply seen_step in G; [|eapply g_page; right; left; reflexivity].
  eapply seen_step in G; [|eapply g_page_image; reflexivity].
  split; [eexists; split; [exact G|reflexivity]|].
  eexists _, _. split; [vm_compute; reflexivity|]. split; [|split].
  - eapply listed_here; [right; left; reflexivity|reflexivity].
  - eapply grouped_here; [left; reflexivity|reflexivity].
  - reflexivity.
Qed.
