(** The texts of errors on Unix. The functions of [Unix.v] once more, with the contents of
    the errors that /repo/src/onenote/mod.rs makes: here a path in an error is a text, as
    in the source. [Report.v] has components instead. The text a caller gets from
    [Display], the only public view of an [Error], is built from them.

    Simplification: what an error made below mod.rs says is not modelled; nor is the text
    of an [io::Error]. Both are given from outside ([detail]). *)
From Coq Require Import String Ascii.
From Verif Require Import Base Codec Package PropSet Store Props Nodes Doc Notebook Report Unix.
Local Open Scope list_scope.

(** /repo/src/errors.rs:68-128: the errors mod.rs makes, with their contents.
    [to_string_lossy] does not change a Unicode text. *)
Inductive told :=
| TNotAToc (file : text)        (** [NotATocFile { file }] *)
| TNotASection (file : text)    (** [NotASectionFile { file }] *)
| TTocMissing (dir : text)      (** [TocFileMissing { dir }] *)
| TInvalid (m : path_problem)   (** [InvalidPath { message }] *)
| TOther (e : ekind).
(** [res] with these for errors. *)
Inductive mres (A : Type) := MGot (a : A) | MSaid (r : told) | MCrashed | MTooDeep.
Arguments MGot {A} _.
Arguments MSaid {A} _.
Arguments MCrashed {A}.
Arguments MTooDeep {A}.
(** The [?] operator *)
Definition mbind {A B} (m : mres A) (f : A -> mres B) : mres B :=
  match m with MGot a => f a | MSaid r => MSaid r | MCrashed => MCrashed | MTooDeep => MTooDeep end.
Notation "'tell!' x ':=' m 'in' k" := (mbind m (fun x => k))
  (at level 200, x pattern, m at level 100, k at level 200).
(** [Option::ok_or_else] *)
Definition or_tell {A} (r : told) (o : option A) : mres A :=
  match o with Some a => MGot a | None => MSaid r end.
(** What happens below mod.rs. *)
Definition beneath {A} (m : res A) : mres A :=
  match m with Ok a => MGot a | Err e => MSaid (TOther e) | Panic => MCrashed | OutOfFuel => MTooDeep end.
(** [collect::<Result<Vec<_>>>()] *)
Fixpoint mmap {A B} (f : A -> mres B) (l : list A) : mres (list B) :=
  match l with
  | [] => MGot []
  | a :: r => tell! b := f a in tell! bs := mmap f r in MGot (b :: bs)
  end.

(** /repo/src/onenote/mod.rs:205-233: [buf] is [sanitized]. *)
Fixpoint m_sanitize (sanitise : name -> name) (buf : text) (cs : path) : mres text :=
  match cs with
  | [] => MGot buf
  | Normal n :: r =>
    if name_eqb (sanitise n) n then m_sanitize sanitise (t_push buf n) r
    else MSaid (TInvalid (BadCharacters n))
  | CurDir :: r => m_sanitize sanitise buf r
  | _ :: _ => MSaid (TInvalid BadComponent)
  end.
(** /repo/src/onenote/mod.rs:196-260 *)
Definition m_resolve (sanitise : name -> name) (fs : tfilesystem) (base_dir : text) (entry : name) : mres text :=
  if is_absolute entry then MSaid (TInvalid NotRelative)
  else
    tell! sanitized := m_sanitize sanitise [] (components entry) in
    match sanitized with
    | [] => MSaid (TInvalid EmptyEntry)
    | _ =>
      let candidate := t_push base_dir sanitized in
      if tfs_exists fs candidate then
        tell! base_canon := or_tell (TInvalid NoBase) (tfs_canonicalize fs base_dir) in
        tell! candidate_canon := or_tell (TInvalid NoEntry) (tfs_canonicalize fs candidate) in
        if starts_with (components candidate_canon) (components base_canon) then MGot candidate
        else MSaid (TInvalid Outside)
      else MGot candidate
    end.

(** /repo/src/onenote/mod.rs:107-119. The file name may be any path. *)
Definition m_section_buffer (h : order) (fuel : nat) (data : list N) (file_name : text) : mres section :=
  tell! st := beneath (open_store h fuel data) in
  if st_schema st =? section_schema then beneath (Doc.parse_section fuel st file_name)
  else MSaid (TNotASection file_name).
(** /repo/src/onenote/mod.rs:128-150, 185-193 *)
Definition m_section (h : order) (fuel : nat) (fs : tfilesystem) (t : text) : mres section :=
  tell! data := or_tell (TOther IO) (tfs_read fs t) in
  tell! st := beneath (open_store h fuel data) in
  if st_schema st =? section_schema then
    tell! n := or_tell (TInvalid NoFileName) (t_file_name t) in
    beneath (Doc.parse_section fuel st n)
  else MSaid (TNotASection t).
(** The loop of /repo/src/onenote/mod.rs:161-182 *)
Fixpoint m_toc (dir : text) (entries : list (option name)) : mres text :=
  match entries with
  | [] => MSaid (TTocMissing dir)
  | None :: _ => MSaid (TOther IO)
  | Some n :: r =>
    let t := t_push dir n in
    match t_extension t with
    | Some e => if name_eqb e onetoc2 then MGot t else m_toc dir r
    | None => m_toc dir r
    end
  end.
(** /repo/src/onenote/mod.rs:59-98 with 152-183 *)
Fixpoint m_notebook (sanitise : name -> name) (h : order) (depth fuel : nat) (fs : tfilesystem) (t : text)
  : mres notebook :=
  match depth with
  | O => MTooDeep
  | S d =>
    tell! data := or_tell (TOther IO) (tfs_read fs t) in
    tell! st := beneath (open_store h fuel data) in
    if st_schema st =? toc_schema then
      tell! base_dir := or_tell (TInvalid NoParent) (t_parent t) in
      tell! (names, color) := beneath (parse_toc fuel (st_data_root st)) in
      tell! paths := mmap (m_resolve sanitise fs base_dir) names in
      let paths := filter (fun p => negb (t_recycle_bin p)) (filter (tfs_exists fs) paths) in
      tell! entries := mmap (fun p =>
        if tfs_is_file fs p then
          tell! s := m_section h fuel fs p in MGot (EnSection s)
        else
          tell! display_name := or_tell (TInvalid NoFileName) (t_file_name p) in
          tell! files := or_tell (TOther IO) (tfs_read_dir fs p) in
          tell! toc := m_toc p files in
          tell! group := m_notebook sanitise h d fuel fs toc in
          MGot (EnGroup display_name (nb_entries group))) paths in
      MGot (Notebook_ entries color)
    else MSaid (TNotAToc t)
  end.

(** A string literal of the source (all are ASCII). *)
Definition lit (s : string) : text := map N_of_ascii (list_ascii_of_string s).

(** The [#[error("..")]] texts of /repo/src/errors.rs:68-128, up to the place where the
    contents come. *)
Definition kind_text (e : ekind) : text :=
  lit match e with
      | UnexpectedEof => "Unexpected end of file"
      | NotATocFile => "Not a table of contents file: "
      | NotASectionFile => "Not a section file: "
      | TocFileMissing => "Table of contents file is missing in dir "
      | MalformedData => "Malformed data: "
      | MalformedOneNoteData => "Malformed OneNote data: "
      | MalformedOneNoteFileData => "Malformed OneNote file data: "
      | MalformedOneStoreData => "Malformed OneStore data: "
      | MalformedFssHttpBData => "Malformed FSSHTTPB data: "
      | InvalidUuid => "Invalid UUID: "
      | IO => "I/O failure: "
      | Utf16Error => "Malformed UTF-16 string: "
      | Utf16MissingNull => "UTF-16 string is missing null terminator: "
      | InvalidPath => "Invalid path: "
      end.
(** [Display] of an [ErrorKind] with its contents as text, and so of an [Error]
    (errors.rs:20): only [UnexpectedEof] has no contents. *)
Definition shown (e : ekind) (contents : text) : text :=
  match e with UnexpectedEof => kind_text e | _ => kind_text e ++ contents end.
(** The messages of [InvalidPath]: /repo/src/onenote/mod.rs:72-74, 143-145, 156-158,
    199-202, 209-211, 213-221, 225-230, 233-238, 242-253, 254-259. [detail] is the text of the
    [io::Error]. *)
Definition problem_text (detail : text) (m : path_problem) : text :=
  match m with
  | NoParent => lit "path has no parent directory"
  | NoFileName => lit "path has no file name"
  | NotRelative => lit "section entry must be a relative path"
  | BadCharacters n => lit "section entry contains invalid characters: " ++ n
  | BadComponent => lit "section entry contains invalid path components"
  | EmptyEntry => lit "section entry is empty"
  | NoBase => lit "failed to resolve base directory: " ++ detail
  | NoEntry => lit "failed to resolve entry path: " ++ detail
  | Outside => lit "section entry escapes base directory"
  | NotUnicode => lit "section entry contains non-utf8 characters"
  end.
(** The text a caller sees. *)
Definition display (detail : text) (r : told) : text :=
  match r with
  | TNotAToc f => shown NotATocFile f
  | TNotASection f => shown NotASectionFile f
  | TTocMissing d => shown TocFileMissing d
  | TInvalid m => shown InvalidPath (problem_text detail m)
  | TOther e => shown e detail
  end.
