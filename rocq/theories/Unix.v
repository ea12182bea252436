(** Paths on Unix as texts. The functions of /repo/src/onenote/mod.rs that handle paths,
    with [std::path] of Unix (library/std/src/path.rs) on texts: a [Path] is a text, and
    the operating system is given texts. [Notebook.v] has components instead.
    Simplification: texts are Unicode, as there. *)
From Verif Require Import Base Codec Package PropSet Store Props Nodes Doc Notebook.

Definition text := list N.

(** [Components::include_cur_dir]: a path that begins with ["."] on its own. *)
Definition cur_dir (t : text) : bool :=
  match t with
  | [c] => c =? dot
  | c :: d :: _ => (c =? dot) && (d =? slash)
  | [] => false
  end.
(** [Components::len_before_body] *)
Definition before_body (t : text) : nat := if is_absolute t then 1 else if cur_dir t then 1 else 0.

(** [Components::parse_next_component_back] on the reversed body: the last piece
    (reversed), and what is before the separator. *)
Fixpoint last_piece (r : text) : text * text :=
  match r with
  | [] => ([], [])
  | c :: r' => if c =? slash then ([], r') else let (p, q) := last_piece r' in (c :: p, q)
  end.
(** [Components::next_back] in the body: pieces that are no component are dropped. *)
Fixpoint back_fuel (fuel : nat) (r : text) : option (component * text) :=
  match fuel, r with
  | S f, _ :: _ =>
    let (p, q) := last_piece r in
    match piece (rev p) with c :: _ => Some (c, q) | [] => back_fuel f q end
  | _, _ => None
  end.
(** [Components::trim_right] *)
Fixpoint trim_fuel (fuel : nat) (r : text) : text :=
  match fuel, r with
  | S f, _ :: _ =>
    let (p, q) := last_piece r in
    match piece (rev p) with _ :: _ => r | [] => trim_fuel f q end
  | _, _ => []
  end.
Definition body_back (body : text) : option (component * text) :=
  match back_fuel (length body) (rev body) with Some (c, q) => Some (c, rev q) | None => None end.
Definition trim_right (body : text) : text := rev (trim_fuel (length body) (rev body)).

(** [Components::next_back] of the whole path *)
Definition t_last (t : text) : option component :=
  match body_back (skipn (before_body t) t) with
  | Some (c, _) => Some c
  | None => if is_absolute t then Some RootDir else if cur_dir t then Some CurDir else None
  end.
(** [Path::parent] *)
Definition t_parent (t : text) : option text :=
  match body_back (skipn (before_body t) t) with
  | Some (_, q) => Some (firstn (before_body t) t ++ trim_right q)
  | None => if is_absolute t then None else if cur_dir t then Some [] else None
  end.
(** [Path::file_name] *)
Definition t_file_name (t : text) : option name :=
  match t_last t with Some (Normal n) => Some n | _ => None end.
(** [Path::extension] *)
Definition t_extension (t : text) : option name :=
  match t_file_name t with Some n => extension n | None => None end.
(** [Path::ends_with("OneNote_RecycleBin")] *)
Definition t_recycle_bin (t : text) : bool :=
  match t_last t with Some (Normal n) => name_eqb n recycle_bin | _ => false end.
(** [PathBuf::push], and [Path::join], which pushes to a copy *)
Definition t_push (t s : text) : text :=
  if is_absolute s then s
  else match rev t with
       | [] => s
       | c :: _ => if c =? slash then t ++ s else t ++ slash :: s
       end.

(** What the operating system does with texts. *)
Record tfilesystem := TFs {
  tfs_exists : text -> bool;
  tfs_is_file : text -> bool;
  tfs_canonicalize : text -> option text;
  tfs_read : text -> option (list N);
  tfs_read_dir : text -> option (list (option name)) }.

(** /repo/src/onenote/mod.rs:205-233: [buf] is [sanitized]. *)
Fixpoint t_sanitize (sanitise : name -> name) (buf : text) (cs : path) : res text :=
  match cs with
  | [] => Ok buf
  | Normal n :: r => if name_eqb (sanitise n) n then t_sanitize sanitise (t_push buf n) r else Err InvalidPath
  | CurDir :: r => t_sanitize sanitise buf r
  | _ :: _ => Err InvalidPath
  end.
(** /repo/src/onenote/mod.rs:196-260 *)
Definition t_resolve (sanitise : name -> name) (fs : tfilesystem) (base_dir : text) (entry : name) : res text :=
  if is_absolute entry then Err InvalidPath
  else
    let! sanitized := t_sanitize sanitise [] (components entry) in
    match sanitized with
    | [] => Err InvalidPath
    | _ =>
      let candidate := t_push base_dir sanitized in
      if tfs_exists fs candidate then
        let! base_canon := ok_or InvalidPath (tfs_canonicalize fs base_dir) in
        let! candidate_canon := ok_or InvalidPath (tfs_canonicalize fs candidate) in
        if starts_with (components candidate_canon) (components base_canon) then Ok candidate else Err InvalidPath
      else Ok candidate
    end.

(** /repo/src/onenote/mod.rs:128-150, 185-193 *)
Definition t_parse_section_file (h : order) (fuel : nat) (fs : tfilesystem) (t : text) : res section :=
  let! data := ok_or IO (tfs_read fs t) in
  let! st := open_store h fuel data in
  if st_schema st =? section_schema then
    let! n := ok_or InvalidPath (t_file_name t) in
    Doc.parse_section fuel st n
  else Err NotASectionFile.

(** The loop of /repo/src/onenote/mod.rs:161-177. [DirEntry::path] is the directory
    joined with the name of the entry. *)
Fixpoint t_find_toc (dir : text) (entries : list (option name)) : res text :=
  match entries with
  | [] => Err TocFileMissing
  | None :: _ => Err IO
  | Some n :: r =>
    let t := t_push dir n in
    match t_extension t with
    | Some e => if name_eqb e onetoc2 then Ok t else t_find_toc dir r
    | None => t_find_toc dir r
    end
  end.

(** /repo/src/onenote/mod.rs:59-98 with 152-183 *)
Fixpoint t_parse_notebook (sanitise : name -> name) (h : order) (depth fuel : nat)
         (fs : tfilesystem) (t : text) : res notebook :=
  match depth with
  | O => OutOfFuel
  | S d =>
    let! data := ok_or IO (tfs_read fs t) in
    let! st := open_store h fuel data in
    if st_schema st =? toc_schema then
      let! base_dir := ok_or InvalidPath (t_parent t) in
      let! (names, color) := parse_toc fuel (st_data_root st) in
      let! paths := map_res (t_resolve sanitise fs base_dir) names in
      let paths := filter (fun p => negb (t_recycle_bin p)) (filter (tfs_exists fs) paths) in
      let! entries := map_res (fun p =>
        if tfs_is_file fs p then
          let! s := t_parse_section_file h fuel fs p in Ok (EnSection s)
        else
          let! display_name := ok_or InvalidPath (t_file_name p) in
          let! files := ok_or IO (tfs_read_dir fs p) in
          let! toc := t_find_toc p files in
          let! group := t_parse_notebook sanitise h d fuel fs toc in
          Ok (EnGroup display_name (nb_entries group))) paths in
      Ok (Notebook_ entries color)
    else Err NotATocFile
  end.
