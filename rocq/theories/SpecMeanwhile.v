(** Independent description of what can stand in the way of reading a notebook while its
    files change: the same obstacles as in [SpecBlame] and [SpecVoyage], every fact at
    its own moment of the run. Nothing here has fuel. *)
From Verif Require Import Base Codec Package PropSet Store Shapes Props Nodes Doc
  SpecCodec SpecStore SpecValues SpecNodes SpecDoc Notebook SpecNotebook SpecCause SpecOpen SpecBlame SpecFate SpecVoyage
  Timed SpecTimed.

Section Meanwhile.
  (** [w] is the file system at every moment; the run has the moments from [a] up to,
      and without, [b]. *)
  Variables (sanitise : name -> name) (h : order) (w : world) (a b : nat).
  Local Notation once := (once w a b).

  (** At some moment the file at [q], in the directory [base], was a table of contents
      of [names]. *)
  Definition toc_seen (q base : path) (names : list name) : Prop := once (fun fs => toc_at h fs q base names).
  (** A table of contents that once was at [q] names [r], which once existed and is not
      the recycle bin. *)
  Definition lists_seen (q r : path) : Prop :=
    exists base names n, toc_seen q base names /\ In n names /\ resolves_seen sanitise w a b base n r /\
      once (fun fs => fs_exists fs r = true) /\ ~ recycled r.
  (** [r] was listed, and once was not a file, but the directory of a group whose table
      of contents is called [toc]. *)
  Definition group_seen (q r : path) (toc : name) : Prop :=
    lists_seen q r /\ once (fun fs => fs_is_file fs r = false) /\
    exists files, once (fun fs => fs_read_dir fs r = Some files) /\ first_toc files toc.
  (** The places of the tables of contents of the notebook at [p]. *)
  Inductive reaches_seen (p : path) : path -> Prop :=
  | rs_own : reaches_seen p p
  | rs_group q r toc : reaches_seen p q -> group_seen q r toc -> reaches_seen p (r ++ [Normal toc]).
  (** Likewise, [n] levels inside. *)
  Inductive nested_seen (p : path) : nat -> path -> Prop :=
  | nn_own : nested_seen p 0 p
  | nn_group n q r toc : nested_seen p n q -> group_seen q r toc -> nested_seen p (S n) (r ++ [Normal toc]).
  (** Its section files. *)
  Definition section_seen (p r : path) : Prop :=
    exists q, reaches_seen p q /\ lists_seen q r /\ once (fun fs => fs_is_file fs r = true).

  (** [n] consists of the words [ns], none of which is special. *)
  Definition plain_words (n : name) (ns : list name) : Prop :=
    exists ws, pieces n ws /\ hd_error n <> Some 47 /\ picks not_dot ws ns /\ ns <> [] /\
      Forall (fun n => n <> [46; 46] /\ sanitise n = n) ns.
  (** The path [r] existed once, but was not inside [base] when this was tested: one of
      the two could not be followed, or they led to places apart. *)
  Definition strays_seen (base r : path) : Prop :=
    once (fun fs => fs_exists fs r = true) /\
    (once (fun fs => fs_canonicalize fs base = None) \/
     once (fun fs => fs_canonicalize fs r = None) \/
     exists cb cr, once (fun fs => fs_canonicalize fs base = Some cb) /\
                   once (fun fs => fs_canonicalize fs r = Some cr) /\ ~ below_path cr cb).

  (** What was wrong with the table of contents at [q], or with what it names. *)
  Inductive trouble_seen (q : path) : ekind -> Prop :=
  | ts_toc_unreadable : once (fun fs => fs_read fs q = None) -> trouble_seen q IO
  | ts_toc_container e : once (fun fs => no_store h fs q e) -> trouble_seen q e
  | ts_toc_kind : once (fun fs => exists st, holds_store h fs q st /\ st_schema st <> 0xE4DBFD38E5C7408BA8A10E7B421E1F5F) ->
      trouble_seen q NotATocFile
  | ts_toc_place : once (fun fs => exists st, holds_store h fs q st) ->
      (forall base last, ends_in q base last -> last = RootDir) -> trouble_seen q InvalidPath
  | ts_toc_content e : once (fun fs => exists st, holds_store h fs q st /\
        st_schema st = 0xE4DBFD38E5C7408BA8A10E7B421E1F5F /\ toc_fault (st_data_root st) e) -> trouble_seen q e
  | ts_entry_name base names n : toc_seen q base names -> In n names -> (forall ns, ~ plain_words n ns) ->
      trouble_seen q InvalidPath
  | ts_entry_strays base names n ns : toc_seen q base names -> In n names -> plain_words n ns ->
      strays_seen base (base ++ map Normal ns) -> trouble_seen q InvalidPath
  | ts_section r e : lists_seen q r -> once (fun fs => fs_is_file fs r = true) ->
      once (fun fs => section_trouble h fs r e) -> trouble_seen q e
  | ts_directory r : lists_seen q r -> once (fun fs => fs_is_file fs r = false) ->
      once (fun fs => fs_read_dir fs r = None) -> trouble_seen q IO
  | ts_listing r before after : lists_seen q r -> once (fun fs => fs_is_file fs r = false) ->
      once (fun fs => fs_read_dir fs r = Some (map Some before ++ None :: after)) ->
      Forall (fun m => ~ toc_name m) before -> trouble_seen q IO
  | ts_no_toc r files : lists_seen q r -> once (fun fs => fs_is_file fs r = false) ->
      once (fun fs => fs_read_dir fs r = Some (map Some files)) ->
      Forall (fun m => ~ toc_name m) files -> trouble_seen q TocFileMissing.

  (** A section file of the notebook at [p] once held a section whose reading crashes (C85). *)
  Definition crash_seen (p : path) : Prop :=
    exists r, section_seen p r /\ once (fun fs => exists st, holds_store h fs r st /\
      st_schema st = 0x1F937CB4B26F445FB9F817E20160E461 /\ crash_at st).
  (** One of its files once led round in circles. *)
  Definition circle_seen (p : path) : Prop :=
    (exists q, reaches_seen p q /\ once (fun fs => toc_circle h fs q)) \/
    (exists r, section_seen p r /\ once (fun fs => section_circle h fs r)).
End Meanwhile.
