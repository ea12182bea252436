(** What the errors of /repo/src/onenote/mod.rs say. The functions of mod.rs that
    return a notebook or a section, once more, with the contents of the errors they
    make themselves: the file or directory named in the error, or what is wrong with a
    path. [Notebook.v] keeps only the kind of an error.

    Simplifications: paths are given by their components, not as text; an error made
    below mod.rs is its kind alone. *)
From Verif Require Import Base Codec Package PropSet Store Props Nodes Doc Notebook.

(** The messages of [ErrorKind::InvalidPath]: mod.rs:72-74, 143-145, 156-158, 199-202,
    209-221, 225-230, 233-238, 242-253, 254-259 *)
Inductive path_problem :=
| NoParent | NoFileName
| NotRelative | BadCharacters (n : name) | BadComponent | EmptyEntry
| NoBase | NoEntry | Outside
| NotUnicode.   (** never on texts; see [Bytes.v] *)
(** /repo/src/errors.rs:68-128: the errors mod.rs makes, with their contents *)
Inductive report :=
| SaysNotAToc (file : path)        (** [NotATocFile { file }] *)
| SaysNotASection (file : path)    (** [NotASectionFile { file }] *)
| SaysTocMissing (dir : path)      (** [TocFileMissing { dir }] *)
| SaysInvalid (m : path_problem)   (** [InvalidPath { message }] *)
| SaysOther (e : ekind).
(** [res] with reports for errors. *)
Inductive rep (A : Type) := Got (a : A) | Said (r : report) | Crashed | TooDeep.
Arguments Got {A} _.
Arguments Said {A} _.
Arguments Crashed {A}.
Arguments TooDeep {A}.
(** The [?] operator *)
Definition pbind {A B} (m : rep A) (f : A -> rep B) : rep B :=
  match m with Got a => f a | Said r => Said r | Crashed => Crashed | TooDeep => TooDeep end.
Notation "'say!' x ':=' m 'in' k" := (pbind m (fun x => k))
  (at level 200, x pattern, m at level 100, k at level 200).
(** [Option::ok_or_else] *)
Definition or_say {A} (r : report) (o : option A) : rep A :=
  match o with Some a => Got a | None => Said r end.
(** What happens below mod.rs. *)
Definition below_ {A} (m : res A) : rep A :=
  match m with Ok a => Got a | Err e => Said (SaysOther e) | Panic => Crashed | OutOfFuel => TooDeep end.
(** [collect::<Result<Vec<_>>>()] *)
Fixpoint pmap {A B} (f : A -> rep B) (l : list A) : rep (list B) :=
  match l with
  | [] => Got []
  | a :: r => say! b := f a in say! bs := pmap f r in Got (b :: bs)
  end.

(** /repo/src/onenote/mod.rs:205-233 *)
Fixpoint say_components (sanitise : name -> name) (cs : path) : rep path :=
  match cs with
  | [] => Got []
  | Normal n :: r =>
    if name_eqb (sanitise n) n then say! rest := say_components sanitise r in Got (Normal n :: rest)
    else Said (SaysInvalid (BadCharacters n))
  | CurDir :: r => say_components sanitise r
  | _ :: _ => Said (SaysInvalid BadComponent)
  end.
(** /repo/src/onenote/mod.rs:196-260 *)
Definition say_resolve (sanitise : name -> name) (fs : filesystem) (base_dir : path) (entry : name) : rep path :=
  if is_absolute entry then Said (SaysInvalid NotRelative)
  else
    say! sanitized := say_components sanitise (components entry) in
    match sanitized with
    | [] => Said (SaysInvalid EmptyEntry)
    | _ =>
      let candidate := base_dir ++ sanitized in
      if fs_exists fs candidate then
        say! base_canon := or_say (SaysInvalid NoBase) (fs_canonicalize fs base_dir) in
        say! candidate_canon := or_say (SaysInvalid NoEntry) (fs_canonicalize fs candidate) in
        if starts_with candidate_canon base_canon then Got candidate else Said (SaysInvalid Outside)
      else Got candidate
    end.

(** /repo/src/onenote/mod.rs:107-119. The error names the file name the caller gave. *)
Definition say_section_buffer (h : order) (fuel : nat) (data : list N) (file_name : name) : rep section :=
  say! st := below_ (open_store h fuel data) in
  if st_schema st =? section_schema then below_ (Doc.parse_section fuel st file_name)
  else Said (SaysNotASection [Normal file_name]).
(** /repo/src/onenote/mod.rs:128-150, 185-193 *)
Definition say_section (h : order) (fuel : nat) (fs : filesystem) (p : path) : rep section :=
  say! data := or_say (SaysOther IO) (fs_read fs p) in
  say! st := below_ (open_store h fuel data) in
  if st_schema st =? section_schema then
    say! n := or_say (SaysInvalid NoFileName) (file_name p) in
    below_ (Doc.parse_section fuel st n)
  else Said (SaysNotASection p).
(** /repo/src/onenote/mod.rs:161-182 *)
Fixpoint say_toc (dir : path) (entries : list (option name)) : rep name :=
  match entries with
  | [] => Said (SaysTocMissing dir)
  | None :: _ => Said (SaysOther IO)
  | Some n :: r =>
    match extension n with
    | Some e => if name_eqb e onetoc2 then Got n else say_toc dir r
    | None => say_toc dir r
    end
  end.
(** /repo/src/onenote/mod.rs:59-98 with 152-183 *)
Fixpoint say_notebook (sanitise : name -> name) (h : order) (depth fuel : nat) (fs : filesystem) (p : path)
  : rep notebook :=
  match depth with
  | O => TooDeep
  | S d =>
    say! data := or_say (SaysOther IO) (fs_read fs p) in
    say! st := below_ (open_store h fuel data) in
    if st_schema st =? toc_schema then
      say! base_dir := or_say (SaysInvalid NoParent) (parent p) in
      say! (names, color) := below_ (parse_toc fuel (st_data_root st)) in
      say! paths := pmap (say_resolve sanitise fs base_dir) names in
      let paths := filter (fun p => negb (is_recycle_bin p)) (filter (fs_exists fs) paths) in
      say! entries := pmap (fun p =>
        if fs_is_file fs p then
          say! s := say_section h fuel fs p in Got (EnSection s)
        else
          say! display_name := or_say (SaysInvalid NoFileName) (file_name p) in
          say! files := or_say (SaysOther IO) (fs_read_dir fs p) in
          say! toc := say_toc p files in
          say! group := say_notebook sanitise h d fuel fs (p ++ [Normal toc]) in
          Got (EnGroup display_name (nb_entries group))) paths in
      Got (Notebook_ entries color)
    else Said (SaysNotAToc p)
  end.
