(** Property theorems for the texts of errors (C94). *)
From Verif Require Import Base Codec Package PropSet Store Props Nodes Doc Notebook SpecNotebook ExampleNotebook PropertiesNotebook PropertiesApi PropertiesStore SpecKinds PropertiesBlame Report PropertiesReport Unix SpecUnix PropertiesUnix Message SpecMessage MessageProofs.
From Coq Require Import String.
Local Open Scope list_scope.

(** ** C94 *)
(** The functions that also make the contents of errors give the results of those of C93. *)
Theorem C94_same : forall sanitise h depth fuel T t data n,
  bare (m_notebook sanitise h depth fuel T t) = t_parse_notebook sanitise h depth fuel T t /\
  bare (m_section h fuel T t) = t_parse_section_file h fuel T t /\
  bare (m_section_buffer h fuel data n) = parse_section_buffer h fuel data n.
Proof. exact (fun s h d fuel T t data n => conj (bare_notebook s h fuel T d t) (conj (bare_section h fuel T t) (bare_buffer h fuel data n))). Qed.
Print Assumptions C94_same.
(** The paths they put into errors have the components of C78. *)
Theorem C94_contents : forall sanitise h depth fuel T F t, takes_apart T F -> plain t ->
  as_rep (m_notebook sanitise h depth fuel T t) = say_notebook sanitise h depth fuel F (components t) /\
  as_rep (m_section h fuel T t) = say_section h fuel F (components t).
Proof.
  exact (fun s h d fuel T F t A P => conj (proj1 (malike_eq _ _) (say_notebook_ok s h fuel T F A d t P)) (proj1 (malike_eq _ _) (say_section_ok h fuel T F t A P))).
Qed.
Print Assumptions C94_contents.
Theorem C94_contents_buffer : forall h fuel data n, proper_name n ->
  as_rep (m_section_buffer h fuel data n) = say_section_buffer h fuel data n.
Proof. exact (fun h fuel data n P => proj1 (malike_eq _ _) (say_buffer_ok h fuel data n P)). Qed.
Print Assumptions C94_contents_buffer.
(** A path in an error of a notebook is the given text itself, when that file is no table
    of contents, or it is below the directory of the given text: that directory, one
    separator, and proper names. In an error of a section it is the given text. *)
Theorem C94_named : forall sanitise h depth fuel T t r f, proper_listings T ->
  m_notebook sanitise h depth fuel T t = MSaid r -> named r = Some f -> r = TNotAToc t \/ inside t f.
Proof.
  exact (fun s h d fuel T t r f P E N => match notebook_named s h fuel T P d t r E with or_introl H => or_introl H | or_intror H => or_intror (H f N) end).
Qed.
Print Assumptions C94_named.
Theorem C94_named_section : forall h fuel T t data n r f,
  (m_section h fuel T t = MSaid r -> named r = Some f -> f = t) /\
  (m_section_buffer h fuel data n = MSaid r -> named r = Some f -> f = n).
Proof. exact (fun h fuel T t data n r f => conj (fun E => section_named h fuel T t r E f) (fun E => buffer_named h fuel data n r E f)). Qed.
Print Assumptions C94_named_section.
(** All a caller gets of an error is its text. Two errors with the same text are of the
    same kind, name the same path and have the same problem, whatever the texts
    of the operating system and of the layers below say. *)
Theorem C94_display : forall sanitise h depth fuel T t sanitise' h' depth' fuel' T' t' r r' detail detail',
  m_notebook sanitise h depth fuel T t = MSaid r -> m_notebook sanitise' h' depth' fuel' T' t' = MSaid r' ->
  display detail r = display detail' r' -> r = r'.
Proof.
  exact (fun s h d fuel T t s' h' d' fuel' T' t' r r' x x' E E' => display_same x x' r r' (proper_notebook s h fuel T d t r E) (proper_notebook s' h' fuel' T' d' t' r' E')).
Qed.
Print Assumptions C94_display.
Theorem C94_display_section : forall h fuel T t data n h' fuel' T' t' data' n' r r' detail detail',
  (m_section h fuel T t = MSaid r \/ m_section_buffer h fuel data n = MSaid r) ->
  (m_section h' fuel' T' t' = MSaid r' \/ m_section_buffer h' fuel' data' n' = MSaid r') ->
  display detail r = display detail' r' -> r = r'.
Proof.
  exact (fun h fuel T t data n h' fuel' T' t' data' n' r r' x x' E E' => display_same x x' r r'
    (match E with or_introl H => proper_section h fuel T t r H | or_intror H => proper_buffer h fuel data n r H end)
    (match E' with or_introl H => proper_section h' fuel' T' t' r' H | or_intror H => proper_buffer h' fuel' data' n' r' H end)).
Qed.
Print Assumptions C94_display_section.
(** Kinds alone, for any contents. *)
Theorem C94_kind : forall e e' contents contents', shown e contents = shown e' contents' -> e = e'.
Proof. exact (fun e e' d d' => shown_kind e e' d d'). Qed.
Print Assumptions C94_kind.

(** The sample notebook without a table of contents in its group: the directory is named
    as it was spelled in the given path. *)
Definition texts_of (F : filesystem) : tfilesystem :=
  TFs (fun t => fs_exists F (components t)) (fun t => fs_is_file F (components t))
    (fun t => if fs_exists F (components t) then Some t else None)
    (fun t => fs_read F (components t)) (fun t => fs_read_dir F (components t)).
Example C94_example :
  let group := home ++ [Normal name_a] in
  let told files dirs := m_notebook same order_id 3 50 (texts_of (plain_fs files dirs)) toc_text' in
  told sample_files (swap_dir group [name_one]) = MSaid (TTocMissing ([slash; slash; 110; slash] ++ name_a)) /\
  told (swap_file (group ++ [Normal name_toc]) sample_section) sample_dirs = MSaid (TNotAToc ([slash; slash; 110; slash] ++ name_a ++ slash :: name_toc)) /\
  told (swap_file (home ++ [Normal name_one]) empty_toc) sample_dirs = MSaid (TNotASection ([slash; slash; 110; slash] ++ name_one)) /\
  told (swap_file (home ++ [Normal name_toc]) sample_section) sample_dirs = MSaid (TNotAToc toc_text') /\
  told (swap_file (home ++ [Normal name_toc]) (toc_file [toc_entry_obj 101 1 [46; 46]])) sample_dirs = MSaid (TInvalid BadComponent) /\
  display [] (TTocMissing [47; 110]) = lit "Table of contents file is missing in dir /n"%string /\
  display [] (TInvalid BadComponent) = lit "Invalid path: section entry contains invalid path components"%string.
Proof. cbv zeta. computes. Qed.
Example C94_listings : proper_listings text_fs.
Proof. exact (fun t l n E I => ta_names _ _ C93_system t l n E I). Qed.
(** Different errors can begin with the same words. *)
Example C94_near : display [] (TOther MalformedOneNoteData) = lit "Malformed OneNote data: "%string /\
  display [] (TOther MalformedOneNoteFileData) = lit "Malformed OneNote file data: "%string.
Proof. computes. Qed.
