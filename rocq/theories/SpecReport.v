(** Independent description of what an error of a notebook says: which file comes first
    among those that cannot be read, and what is wrong with it. Nothing here has fuel. *)
From Verif Require Import Base Codec PropSet Store Package Shapes Props Nodes Doc
  SpecCodec SpecStore SpecValues SpecNodes SpecDoc Notebook SpecNotebook SpecKinds SpecCause SpecOpen SpecBlame Report.

(** The kind of an error, and the result without what errors say. *)
Definition kind_of (r : report) : ekind :=
  match r with
  | SaysNotAToc _ => NotATocFile | SaysNotASection _ => NotASectionFile | SaysTocMissing _ => TocFileMissing
  | SaysInvalid _ => InvalidPath | SaysOther e => e
  end.
Definition without_words {A} (m : rep A) : res A :=
  match m with Got a => Ok a | Said r => Err (kind_of r) | Crashed => Panic | TooDeep => OutOfFuel end.

(** The reports that name a file or a directory. *)
Definition names_one (r : report) : Prop :=
  match r with SaysNotAToc _ | SaysNotASection _ | SaysTocMissing _ => True | _ => False end.

(** What is wrong with the listed name [e], in the directory [base]. *)
Definition part (w : name) (e : name) : Prop := exists ws, pieces e ws /\ In w ws.
Definition stands_for (base : path) (e : name) (p : path) : Prop :=
  exists ws ns, pieces e ws /\ picks not_dot ws ns /\ p = base ++ map Normal ns.
Inductive bad_name (sanitise : name -> name) (fs : filesystem) (base : path) (e : name) : path_problem -> Prop :=
| bn_absolute : hd_error e = Some 47 -> bad_name sanitise fs base e NotRelative
| bn_characters w : part w e -> not_dot w -> w <> [46; 46] -> sanitise w <> w -> bad_name sanitise fs base e (BadCharacters w)
| bn_dots : part [46; 46] e -> bad_name sanitise fs base e BadComponent
| bn_empty : (forall w, part w e -> ~ not_dot w) -> bad_name sanitise fs base e EmptyEntry
| bn_base p : stands_for base e p -> fs_exists fs p = true -> fs_canonicalize fs base = None ->
    bad_name sanitise fs base e NoBase
| bn_entry p : stands_for base e p -> fs_exists fs p = true -> fs_canonicalize fs p = None ->
    bad_name sanitise fs base e NoEntry
| bn_outside p cb cp : stands_for base e p -> fs_exists fs p = true -> fs_canonicalize fs base = Some cb ->
    fs_canonicalize fs p = Some cp -> ~ below_path cp cb -> bad_name sanitise fs base e Outside.

Section Report.
  Variables (sanitise : name -> name) (h : order) (fs : filesystem).

  (** [r] is listed by the table of contents at [q] and everything listed before it can
      be read. *)
  Definition comes_first (q r : path) : Prop :=
    exists base names ps shown before after,
      toc_at h fs q base names /\ Forall2 (resolves sanitise fs base) names ps /\
      picks (fun x => fs_exists fs x = true /\ ~ recycled x) ps shown /\
      shown = before ++ r :: after /\ Forall (fun x => exists e, entry_at sanitise h fs x e) before.
  (** The table of contents of [p] itself, or of the group that comes first in it, or of
      the group that comes first in that one, and so on. *)
  Inductive first_reached (p : path) : path -> Prop :=
  | fr_own : first_reached p p
  | fr_group q r files toc : first_reached p q -> comes_first q r -> fs_is_file fs r = false ->
      fs_read_dir fs r = Some files -> first_toc files toc -> first_reached p (r ++ [Normal toc]).

  (** What is wrong with the section file at [p], as the report says it. *)
  Inductive section_says (p : path) : report -> Prop :=
  | sy_unreadable : fs_read fs p = None -> section_says p (SaysOther IO)
  | sy_container e : no_store h fs p e -> section_says p (SaysOther e)
  | sy_other_kind st : holds_store h fs p st -> st_schema st <> 0x1F937CB4B26F445FB9F817E20160E461 ->
      section_says p (SaysNotASection p)
  | sy_no_name st : holds_store h fs p st -> (forall base n, ~ ends_in p base (Normal n)) ->
      section_says p (SaysInvalid NoFileName)
  | sy_content st base n e : holds_store h fs p st -> st_schema st = 0x1F937CB4B26F445FB9F817E20160E461 ->
      ends_in p base (Normal n) -> fault st e ->
      section_says p (SaysOther e).
  (** What is wrong with a buffer the caller calls [file]. *)
  Inductive buffer_says (data : list N) (file : name) : report -> Prop :=
  | by_container e : (forall st, ~ opens h data st) -> opening_fault h data e -> buffer_says data file (SaysOther e)
  | by_other_kind st : opens h data st -> st_schema st <> 0x1F937CB4B26F445FB9F817E20160E461 ->
      buffer_says data file (SaysNotASection [Normal file])
  | by_content st e : opens h data st -> st_schema st = 0x1F937CB4B26F445FB9F817E20160E461 ->
      fault st e -> buffer_says data file (SaysOther e).
  (** What is wrong with the table of contents at [q], or with what comes first in it. *)
  Inductive says (q : path) : report -> Prop :=
  | sa_unreadable : fs_read fs q = None -> says q (SaysOther IO)
  | sa_container e : no_store h fs q e -> says q (SaysOther e)
  | sa_kind st : holds_store h fs q st -> st_schema st <> 0xE4DBFD38E5C7408BA8A10E7B421E1F5F ->
      says q (SaysNotAToc q)
  | sa_place st : holds_store h fs q st -> (forall base last, ends_in q base last -> last = RootDir) ->
      says q (SaysInvalid NoParent)
  | sa_content st e : holds_store h fs q st -> st_schema st = 0xE4DBFD38E5C7408BA8A10E7B421E1F5F ->
      toc_fault (st_data_root st) e -> says q (SaysOther e)
  | sa_name base before n after ps m : toc_at h fs q base (before ++ n :: after) ->
      Forall2 (resolves sanitise fs base) before ps -> bad_name sanitise fs base n m -> says q (SaysInvalid m)
  | sa_section r w : comes_first q r -> fs_is_file fs r = true -> section_says r w -> says q w
  | sa_directory r : comes_first q r -> fs_is_file fs r = false -> fs_read_dir fs r = None -> says q (SaysOther IO)
  | sa_listing r before after : comes_first q r -> fs_is_file fs r = false ->
      fs_read_dir fs r = Some (map Some before ++ None :: after) -> Forall (fun m => ~ toc_name m) before ->
      says q (SaysOther IO)
  | sa_no_toc r files : comes_first q r -> fs_is_file fs r = false -> fs_read_dir fs r = Some (map Some files) ->
      Forall (fun m => ~ toc_name m) files -> says q (SaysTocMissing r).
End Report.
