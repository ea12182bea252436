(** Independent description of what stands in the way of reading a section file or a
    notebook: which file or directory, and what is wrong with it. Nothing here has
    fuel. *)
From Verif Require Import Base Codec PropSet Store Package Shapes Props Nodes Doc
  SpecCodec SpecStore SpecValues SpecNodes SpecDoc Notebook SpecNotebook SpecKinds SpecCause SpecOpen.

Section Blame.
  Variables (sanitise : name -> name) (h : order) (fs : filesystem).

  (** The file at [p] holds this store. *)
  Definition holds_store (p : path) (st : store) : Prop := exists bs, fs_read fs p = Some bs /\ opens h bs st.
  (** The file at [p] can be read, but does not open, for this reason. *)
  Definition no_store (p : path) (e : ekind) : Prop :=
    exists bs, fs_read fs p = Some bs /\ (forall st, ~ opens h bs st) /\ opening_fault h bs e.

  (** What can be wrong with the section file at [p]. *)
  Inductive section_trouble (p : path) : ekind -> Prop :=
  | tr_unreadable : fs_read fs p = None -> section_trouble p IO
  | tr_container e : no_store p e -> section_trouble p e
  | tr_other_kind st : holds_store p st -> st_schema st <> 0x1F937CB4B26F445FB9F817E20160E461 ->
      section_trouble p NotASectionFile
  | tr_no_name st : holds_store p st -> (forall base n, ~ ends_in p base (Normal n)) -> section_trouble p InvalidPath
  | tr_content st base n e : holds_store p st -> st_schema st = 0x1F937CB4B26F445FB9F817E20160E461 ->
      ends_in p base (Normal n) -> fault st e -> section_trouble p e.

  (** The file at [q], in the directory [base], is a table of contents of [names]. *)
  Definition toc_at (q base : path) (names : list name) : Prop :=
    exists st last c, holds_store q st /\ st_schema st = 0xE4DBFD38E5C7408BA8A10E7B421E1F5F /\
      ends_in q base last /\ last <> RootDir /\ toc_is (st_data_root st) names c.
  (** The table of contents at [q] names the existing [r], which is not the recycle bin. *)
  Definition lists (q r : path) : Prop :=
    exists base names n, toc_at q base names /\ In n names /\ resolves sanitise fs base n r /\
      fs_exists fs r = true /\ ~ recycled r.
  (** The tables of contents of the notebook at [p]: its own, and those of the section
      groups in it, at any depth. *)
  Inductive reaches (p : path) : path -> Prop :=
  | re_own : reaches p p
  | re_group q r files toc : reaches p q -> lists q r -> fs_is_file fs r = false ->
      fs_read_dir fs r = Some files -> first_toc files toc -> reaches p (r ++ [Normal toc]).

  (** What can be wrong with the table of contents at [q], or with what it names. *)
  Inductive trouble (q : path) : ekind -> Prop :=
  | tr_toc_unreadable : fs_read fs q = None -> trouble q IO
  | tr_toc_container e : no_store q e -> trouble q e
  | tr_toc_kind st : holds_store q st -> st_schema st <> 0xE4DBFD38E5C7408BA8A10E7B421E1F5F -> trouble q NotATocFile
  | tr_toc_place st : holds_store q st -> (forall base last, ends_in q base last -> last = RootDir) -> trouble q InvalidPath
  | tr_toc_content st e : holds_store q st -> st_schema st = 0xE4DBFD38E5C7408BA8A10E7B421E1F5F ->
      toc_fault (st_data_root st) e -> trouble q e
  | tr_entry_name base names n : toc_at q base names -> In n names -> (forall r, ~ resolves sanitise fs base n r) ->
      trouble q InvalidPath
  | tr_section r e : lists q r -> fs_is_file fs r = true -> section_trouble r e -> trouble q e
  | tr_directory r : lists q r -> fs_is_file fs r = false -> fs_read_dir fs r = None -> trouble q IO
  | tr_listing r before after : lists q r -> fs_is_file fs r = false ->
      fs_read_dir fs r = Some (map Some before ++ None :: after) -> Forall (fun m => ~ toc_name m) before ->
      trouble q IO
  | tr_no_toc r files : lists q r -> fs_is_file fs r = false -> fs_read_dir fs r = Some (map Some files) ->
      Forall (fun m => ~ toc_name m) files -> trouble q TocFileMissing.
End Blame.
