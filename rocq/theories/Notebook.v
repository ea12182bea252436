(** Notebooks, sections and the file system. Models /repo/src/onenote/mod.rs and
    /repo/src/onenote/notebook.rs on Unix (no [Component::Prefix]). The file
    system is a record of arbitrary functions, fixed for the duration of a call
    ([Timed.v] models the accesses one by one, while it changes).
    File names are lists of characters: names that are not valid Unicode are not
    modelled. The [sanitise-file-name] crate is an arbitrary function. *)
From Verif Require Import Base Codec Package PropSet PropIds Store Shapes Props Nodes Doc.

(** ** Paths: [std::path] *)

Definition name := list N.

(** [std::path::Component] *)
Inductive component := RootDir | CurDir | ParentDir | Normal (n : name).

(** A [Path] or [PathBuf], by its components. *)
Definition path := list component.

(** The separator ['/'] and the dot. *)
Definition slash : N := 47.
Definition dot : N := 46.

(** [str::split('/')] *)
Fixpoint split_slash (s : list N) : list (list N) :=
  match s with
  | [] => [[]]
  | c :: r =>
    match split_slash r with
    | [] => [[c]]
    | w :: ws => if c =? slash then [] :: w :: ws else (c :: w) :: ws
    end
  end.

Fixpoint name_eqb (a b : name) : bool :=
  match a, b with
  | [], [] => true
  | x :: a', y :: b' => (x =? y) && name_eqb a' b'
  | _, _ => false
  end.

(** What [Path::components] yields for the text between two separators, not at
    the start of the path: empty and ["."] pieces are skipped. *)
Definition piece (w : list N) : list component :=
  if name_eqb w [] then []
  else if name_eqb w [dot] then []
  else if name_eqb w [dot; dot] then [ParentDir]
  else [Normal w].

(** [Path::new(s).components()]: a leading separator gives [RootDir], a leading
    ["."] gives [CurDir]. *)
Definition components (s : list N) : path :=
  match split_slash s with
  | [] => []
  | w :: ws =>
    match s with
    | [] => []
    | c :: _ =>
      if c =? slash then RootDir :: flat_map piece ws
      else if name_eqb w [dot] then CurDir :: flat_map piece ws
      else flat_map piece (w :: ws)
    end
  end.

(** [Path::is_absolute] on Unix *)
Definition is_absolute (s : list N) : bool :=
  match s with c :: _ => c =? slash | [] => false end.

(** [Path::parent] *)
Definition parent (p : path) : option path :=
  match rev p with
  | [] => None
  | RootDir :: _ => None
  | _ :: r => Some (rev r)
  end.

(** [Path::file_name] *)
Definition file_name (p : path) : option name :=
  match rev p with Normal n :: _ => Some n | _ => None end.

(** [Path::extension]: what follows the last dot of the file name, if anything
    precedes that dot. [rev_ext acc r] looks for the dot in the reversed name. *)
Fixpoint rev_ext (acc r : list N) : option name :=
  match r with
  | [] => None
  | c :: r' => if c =? dot then match r' with [] => None | _ => Some acc end
               else rev_ext (c :: acc) r'
  end.
Definition extension (n : name) : option name := rev_ext [] (rev n).

Definition component_eqb (a b : component) : bool :=
  match a, b with
  | RootDir, RootDir => true
  | CurDir, CurDir => true
  | ParentDir, ParentDir => true
  | Normal x, Normal y => name_eqb x y
  | _, _ => false
  end.

(** [Path::starts_with] *)
Fixpoint starts_with (p base : path) : bool :=
  match base, p with
  | [], _ => true
  | b :: base', c :: p' => component_eqb b c && starts_with p' base'
  | _ :: _, [] => false
  end.

(** ["OneNote_RecycleBin"] and ["onetoc2"] *)
Definition recycle_bin : name :=
  [79; 110; 101; 78; 111; 116; 101; 95; 82; 101; 99; 121; 99; 108; 101; 66; 105; 110].
Definition onetoc2 : name := [111; 110; 101; 116; 111; 99; 50].

(** [p.ends_with("OneNote_RecycleBin")] *)
Definition is_recycle_bin (p : path) : bool :=
  match rev p with Normal n :: _ => name_eqb n recycle_bin | _ => false end.

(** ** The file system *)

Record filesystem := FileSystem {
  fs_exists : path -> bool;                          (** [Path::exists] *)
  fs_is_file : path -> bool;                         (** [Path::is_file] *)
  fs_canonicalize : path -> option path;             (** [Path::canonicalize] *)
  fs_read : path -> option (list N);                 (** [File::open], [metadata], [read_to_end] *)
  fs_read_dir : path -> option (list (option name))  (** [Path::read_dir] and its iterator *) }.

(** ** Table of contents: /repo/src/onenote/notebook.rs *)

(** /repo/src/onenote/notebook.rs:28-31 *)
Record toc_entry := TocEntry { te_entries : list (N * name); te_color : option color }.

(** /repo/src/onenote/notebook.rs:50-81 *)
Fixpoint parse_toc_entry (fuel : nat) (sp : space) (id : exguid) : res toc_entry :=
  match fuel with
  | O => OutOfFuel
  | S f =>
    let! o := need_object id sp in
    let! toc := toc_parse o in
    match tc_filename toc with
    | Some name =>
      let! ordering := ok_or MalformedOneNoteData (tc_ordering_id toc) in
      Ok (TocEntry [(ordering, name)] (tc_color toc))
    | None =>
      let! children := map_res (parse_toc_entry f sp) (tc_children toc) in
      Ok (TocEntry (flat_map te_entries children) (tc_color toc))
    end
  end.

(** [sorted_by_key(|(ordering_id, _)| *ordering_id)], a stable sort *)
Fixpoint insert_by_key (e : N * name) (l : list (N * name)) : list (N * name) :=
  match l with
  | [] => [e]
  | e' :: r => if fst e <=? fst e' then e :: l else e' :: insert_by_key e r
  end.
Definition sorted_by_key (l : list (N * name)) : list (N * name) :=
  fold_right insert_by_key [] l.

(** [dedup_by(|(_, a), (_, b)| a == b)]: of adjacent entries with the same name
    the first is kept. [last] is the entry kept last. *)
Fixpoint dedup_from (last : N * name) (l : list (N * name)) : list (N * name) :=
  match l with
  | [] => [last]
  | e :: r => if name_eqb (snd last) (snd e) then dedup_from last r
              else last :: dedup_from e r
  end.
Definition dedup (l : list (N * name)) : list (N * name) :=
  match l with [] => [] | e :: r => dedup_from e r end.

(** /repo/src/onenote/notebook.rs:33-48 *)
Definition parse_toc (fuel : nat) (sp : space) : res (list name * option color) :=
  let! id := ok_or MalformedOneNoteData (content_root sp) in
  let! e := parse_toc_entry fuel sp id in
  Ok (map snd (dedup (sorted_by_key (te_entries e))), te_color e).

(** ** /repo/src/onenote/mod.rs *)

(** /repo/src/onenote/mod.rs:205-233: the loop over the components. *)
Fixpoint sanitize_components (sanitise : name -> name) (cs : path) : res path :=
  match cs with
  | [] => Ok []
  | Normal n :: r =>
    if name_eqb (sanitise n) n then
      let! rest := sanitize_components sanitise r in Ok (Normal n :: rest)
    else Err InvalidPath
  | CurDir :: r => sanitize_components sanitise r
  | _ :: _ => Err InvalidPath
  end.

(** /repo/src/onenote/mod.rs:196-260 *)
Definition resolve_entry_path (sanitise : name -> name) (fs : filesystem) (base_dir : path)
           (entry : name) : res path :=
  if is_absolute entry then Err InvalidPath
  else
    let! sanitized := sanitize_components sanitise (components entry) in
    match sanitized with
    | [] => Err InvalidPath
    | _ =>
      let candidate := base_dir ++ sanitized in
      if fs_exists fs candidate then
        let! base_canon := ok_or InvalidPath (fs_canonicalize fs base_dir) in
        let! candidate_canon := ok_or InvalidPath (fs_canonicalize fs candidate) in
        if starts_with candidate_canon base_canon then Ok candidate else Err InvalidPath
      else Ok candidate
    end.

(** mod.rs:65 and mod.rs:111, mod.rs:133 *)
Definition toc_schema : guid := 0xE4DBFD38E5C7408BA8A10E7B421E1F5F.
Definition section_schema : guid := 0x1F937CB4B26F445FB9F817E20160E461.

(** /repo/src/onenote/mod.rs:62-63, 108-109, 130-131: from bytes to a store. *)
Definition open_store (h : order) (fuel : nat) (data : list N) : res store :=
  let! pg := run packaging_parse data in parse_store h fuel pg.

(** /repo/src/onenote/mod.rs:107-119 *)
Definition parse_section_buffer (h : order) (fuel : nat) (data : list N) (file_name : name)
  : res section :=
  let! st := open_store h fuel data in
  if st_schema st =? section_schema then Doc.parse_section fuel st file_name
  else Err NotASectionFile.

(** /repo/src/onenote/mod.rs:128-150, 185-193 *)
Definition parse_section_file (h : order) (fuel : nat) (fs : filesystem) (p : path)
  : res section :=
  let! data := ok_or IO (fs_read fs p) in
  let! st := open_store h fuel data in
  if st_schema st =? section_schema then
    let! n := ok_or InvalidPath (file_name p) in
    Doc.parse_section fuel st n
  else Err NotASectionFile.

(** /repo/src/onenote/section.rs:10-13, 49-52 *)
Inductive section_entry :=
| EnSection (s : section)
| EnGroup (display_name : name) (entries : list section_entry).

(** /repo/src/onenote/notebook.rs:11-14 *)
Record notebook := Notebook_ { nb_entries : list section_entry; nb_color : option color }.

(** The loop of /repo/src/onenote/mod.rs:161-177: the first directory entry with
    the extension [onetoc2]. *)
Fixpoint find_toc (entries : list (option name)) : res name :=
  match entries with
  | [] => Err TocFileMissing
  | None :: _ => Err IO
  | Some n :: r =>
    match extension n with
    | Some e => if name_eqb e onetoc2 then Ok n else find_toc r
    | None => find_toc r
    end
  end.

(** /repo/src/onenote/mod.rs:59-98 ([parse_notebook]) with 152-183
    ([parse_section_group]). [depth] bounds the nesting of section groups. *)
Fixpoint parse_notebook (sanitise : name -> name) (h : order) (depth fuel : nat)
         (fs : filesystem) (p : path) : res notebook :=
  match depth with
  | O => OutOfFuel
  | S d =>
    let! data := ok_or IO (fs_read fs p) in
    let! st := open_store h fuel data in
    if st_schema st =? toc_schema then
      let! base_dir := ok_or InvalidPath (parent p) in
      let! (names, color) := parse_toc fuel (st_data_root st) in
      let! paths := map_res (resolve_entry_path sanitise fs base_dir) names in
      let paths := filter (fun p => negb (is_recycle_bin p)) (filter (fs_exists fs) paths) in
      let! entries := map_res (fun p =>
        if fs_is_file fs p then
          let! s := parse_section_file h fuel fs p in Ok (EnSection s)
        else
          let! display_name := ok_or InvalidPath (file_name p) in
          let! files := ok_or IO (fs_read_dir fs p) in
          let! toc := find_toc files in
          let! group := parse_notebook sanitise h d fuel fs (p ++ [Normal toc]) in
          Ok (EnGroup display_name (nb_entries group))) paths in
      Ok (Notebook_ entries color)
    else Err NotATocFile
  end.
